(* The end of the file: the last line without its end of line. *)
From Verif Require Import Base Utils Trie TrieProofs UtilsProofs Config ConfigProofs ConfigSpec ConfigRun.

Lemma ends_lit_true l : ends_lit l = true -> exists r c, l = r ++ [Lit c].
Proof.
  unfold ends_lit. intro H. destruct (rev l) as [|[c|c] r] eqn:E; try discriminate.
  exists (rev r), c. rewrite <- (rev_involutive l), E. reflexivity.
Qed.
Lemma ends_lit_false l : ends_lit l = false -> l = [] \/ exists r c, l = r ++ [Esc c].
Proof.
  unfold ends_lit. intro H. destruct (rev l) as [|[c|c] r] eqn:E; try discriminate.
  - left. rewrite <- (rev_involutive l), E. reflexivity.
  - right. exists (rev r), c. rewrite <- (rev_involutive l), E. reflexivity.
Qed.

Lemma runs_end' lists p s root : c_root s = root -> Runs lists p [] s (inl root).
Proof. intros <-. apply runs_end. Qed.

(* an escaped byte ends the buffer: what was being read is dropped *)
Lemma run_esc_end lists q st sec k p c v root :
  Runs lists p [BSL; c] (Cst q st sec k (Some v) false root) (inl root).
Proof.
  eapply runs_next with (s' := Cst q st sec k (Some v) true root).
  { unfold cfg_step. cbn. rewrite eqb_refl. reflexivity. }
  eapply runs_next with (s' := Cst q st sec k (Some (v ++ [c])) false root); [reflexivity|].
  apply runs_end'. reflexivity.
Qed.

Lemma run_skip_end lists l p st sec root : skip_ok l ->
  Runs lists p (line_text0 l) (at_start st sec root) (inl root).
Proof.
  destruct l as [w|m t e|k kp v e|v e]; simpl; intro Hs; try contradiction.
  - rewrite <- (app_nil_r w). apply runs_stay; [|apply runs_end'; reflexivity].
    intros p' c q' Hc. unfold over in Hs. rewrite Forall_forall in Hs. apply Hs in Hc. simpl in Hc.
    intuition (subst c; reflexivity).
  - destruct Hs as (Hm & Ht & He).
    assert (Hm' : nl m = false /\ ((m == "#"%char) || (m == ";"%char)) = true).
    { simpl in Hm. intuition (subst m; reflexivity). }
    destruct Hm' as [Hm1 Hm2].
    apply (@runs_comment_end lists p m t (at_start st sec root)); [|exact Hm1|].
    + unfold cfg_step. cbn. rewrite Hm2. reflexivity.
    + revert Ht. apply Forall_impl. intros a Ha. apply notin_newlines. exact Ha.
Qed.

Lemma toks_in_plain q l post : (q = CValue \/ q = CList) ->
  Forall plain_tok l -> over hblanks post -> Forall (tok_in q) (l ++ lits post).
Proof.
  intros Hq Hl Hp. apply Forall_app. split; [|apply lits_blank; auto].
  revert Hl. apply Forall_impl. intros. apply plain_tok_in; auto.
Qed.

Lemma full_no_nul l post : Forall plain_tok l -> over hblanks post -> no_nul (toks_chars (l ++ lits post)).
Proof.
  intros Hl Hp. rewrite toks_chars_app, lits_chars. apply no_nul_app. split.
  - eapply toks_no_nul; [apply plain_tok_nul|exact Hl].
  - apply over_no_nul. exact Hp.
Qed.

(* reading tokens up to the last byte *)
Lemma run_toks_lit lists q st sec k r l x : Forall (tok_in q) l -> forall p v root,
  Runs lists (p ++ toks_bytes l) [x] (Cst q st sec k (Some (v ++ toks_chars l)) false root) r ->
  Runs lists p (toks_bytes (l ++ [Lit x])) (Cst q st sec k (Some v) false root) r.
Proof.
  intros Hl p v root H. rewrite toks_bytes_app. cbn [toks_bytes flat_map tok_bytes app].
  apply runs_toks; assumption.
Qed.
Lemma run_toks_esc lists q st sec k l x : Forall (tok_in q) l -> forall p v root,
  Runs lists p (toks_bytes (l ++ [Esc x])) (Cst q st sec k (Some v) false root) (inl root).
Proof.
  intros Hl p v root. rewrite toks_bytes_app. cbn [toks_bytes flat_map tok_bytes app].
  apply runs_toks; [exact Hl|]. apply run_esc_end.
Qed.

Lemma value_last_step lists src cur x st n m k v root :
  nl x = false -> (x == BSL) = false ->
  cfg_step lists src cur (Cst CValue st (Some (n, SMap m)) (Some k) (Some v) false root) x true
  = let m' := SMap (trie_insert m (strip k) (rstrip (cstr (v ++ [x])))) in
    Ok (Next (at_start st (Some (n, m')) (trie_insert root n m'))).
Proof.
  intros H1 H2. unfold cfg_step. cbn -[nl strip rstrip cstr]. rewrite H1, H2. reflexivity.
Qed.
Lemma list_last_step lists src cur x st n l v root :
  nl x = false -> (x == BSL) = false ->
  cfg_step lists src cur (Cst CList st (Some (n, SList l)) None (Some v) false root) x true
  = let l' := SList (l ++ [strip (cstr (v ++ [x]))]) in
    Ok (Next (at_start st (Some (n, l')) (trie_insert root n l'))).
Proof.
  intros H1 H2. unfold cfg_step. cbn -[nl strip rstrip cstr]. rewrite H1, H2. reflexivity.
Qed.

Lemma tok_in_lit q x : (q = CValue \/ q = CList) -> tok_in q (Lit x) -> nl x = false /\ (x == BSL) = false.
Proof. intros [-> | ->] [H1 H2]; split; assumption. Qed.

Lemma run_key_end lists k kp v eol p st n m root :
  map_line_ok (Key k kp v eol) ->
  Runs lists p (line_text0 (Key k kp v eol)) (at_start st (Some (n, SMap m)) root)
    (inl (if survives (Key k kp v eol)
          then trie_insert root n (SMap (trie_insert m k (value_of v))) else root)).
Proof.
  intros (Hk & Hv & _). cbn [line_text0]. cbn [app].
  destruct v as [pre l post|pre l post]; cbn [value_text value_of].
  - destruct Hv as (Hpre & Hl & Hf & Hla & Hpost & Hemp).
    destruct l as [|t l].
    + rewrite (Hemp eq_refl). cbn [toks_bytes flat_map app survives]. rewrite app_nil_r.
      destruct pre as [|c pre].
      * apply run_key_name; [exact Hk|].
        eapply runs_next with (s' := Cst CValueStart (length p) (Some (n, SMap (trie_insert m k [])))
            None None false (trie_insert root n (SMap (trie_insert m k [])))).
        { unfold cfg_step. cbn -[nl skipn strip]. rewrite <- app_assoc.
          rewrite strndup_mid by (apply key_no_nul; exact Hk). rewrite (strip_key Hk). reflexivity. }
        apply runs_end'. reflexivity.
      * apply run_to_eq; [exact Hk|]. intro st'. rewrite <- (app_nil_r (c :: pre)).
        apply runs_stay; [|apply runs_end'; reflexivity].
        intros p' x q' Hx. unfold over in Hpre. rewrite Forall_forall in Hpre. apply Hpre in Hx.
        apply in_hblanks in Hx. unfold cfg_step. cbn -[hblank nl]. rewrite (hblank_bsl Hx), Hx. reflexivity.
    + destruct (Hf t l eq_refl) as (c & -> & Hc).
      inversion Hl as [|? ? Hc1 Hl']; subst. simpl in Hc1.
      assert (Hcb : (c == BSL) = false) by (apply eqb_false; intuition).
      assert (Hch : hblank c = false)
        by (apply notin_hblanks; intro; apply Hc; apply in_or_app; auto).
      assert (Hcq : (c == DQ) = false)
        by (apply eqb_false; intro; apply Hc; apply in_or_app; right; left; auto).
      assert (Hcn : nl c = false) by (apply notin_newlines; simpl; intuition).
      cbn [survives].
      rewrite <- (lits_bytes post) at 1. rewrite <- toks_bytes_app.
      change (map Lit post) with (lits post).
      pose proof (@toks_in_plain CValue l post (or_introl eq_refl) Hl' Hpost) as Hin.
      pose proof (full_no_nul Hl Hpost) as Hnn.
      cbn [app]. change (toks_bytes (Lit c :: l ++ lits post)) with (c :: toks_bytes (l ++ lits post)).
      assert (Hval : rstrip (toks_chars ((Lit c :: l) ++ lits post)) = toks_chars (Lit c :: l)).
      { rewrite toks_chars_app, lits_chars, rstrip_chars; [reflexivity|exact Hpost|].
        apply toks_last. exact Hla. }
      destruct (value_text_cons (Plain pre [] []) c (toks_bytes (l ++ lits post))) as (e & q' & Heq).
      cbn [value_text toks_bytes flat_map] in Heq. rewrite app_nil_r in Heq.
      rewrite Heq. apply run_to_eq; [exact Hk|]. intro st'. rewrite <- Heq.
      apply run_pre; [auto|exact Hpre|].
      cbn [app] in Hnn, Hval. remember (l ++ lits post) as full eqn:Hfull.
      change (Lit c :: full) with ([Lit c] ++ full) in *.
      rewrite toks_chars_app in Hnn, Hval. cbn [toks_chars map tok_char] in Hnn, Hval.
      destruct (ends_lit ([Lit c] ++ full)) eqn:El.
      * apply ends_lit_true in El. destruct El as (ts & x & Hx). cbn [app] in Hx.
        destruct ts as [|t0 ts].
        { simpl in Hx. injection Hx as <- ->. cbn [toks_bytes flat_map].
          eapply runs_again with (s' := Cst CValue st' (Some (n, SMap m)) (Some (k ++ kp)) (Some []) false root).
          { unfold cfg_step. cbn -[nl hblank]. rewrite Hcb, Hch, Hcq, orb_true_r. reflexivity. }
          eapply runs_next; [apply value_last_step; assumption|].
          apply runs_end'. cbn -[strip rstrip cstr]. rewrite (strip_key Hk).
          simpl in Hval, Hnn. simpl app. rewrite cstr_id by exact Hnn. rewrite Hval. reflexivity. }
        cbn [app] in Hx. injection Hx as <- Hx.
        eapply runs_next with (s' := Cst CValue st' (Some (n, SMap m)) (Some (k ++ kp)) (Some [c]) false root).
        { rewrite Hx, toks_bytes_app. cbn [toks_bytes flat_map tok_bytes app].
          rewrite is_nil_app_cons. unfold cfg_step. cbn -[nl hblank].
          rewrite Hcb, Hch, Hcq, Hcn. reflexivity. }
        rewrite Hx in Hin, Hnn, Hval |- *. apply Forall_app in Hin. destruct Hin as [Hin1 Hin2].
        apply run_toks_lit; [exact Hin1|].
        inversion Hin2 as [|? ? Hx2 _]; subst. apply tok_in_lit in Hx2; [|auto].
        eapply runs_next; [apply value_last_step; apply Hx2|].
        apply runs_end'. cbn -[strip rstrip cstr]. rewrite (strip_key Hk).
        rewrite toks_chars_app in Hnn, Hval.
        change (c :: toks_chars ts ++ [x]) with ([c] ++ toks_chars ts ++ toks_chars [Lit x]).
        rewrite cstr_id by exact Hnn. rewrite Hval. reflexivity.
      * apply ends_lit_false in El. destruct El as [El|(ts & x & Hx)]; [discriminate|].
        destruct ts as [|t0 ts]; [discriminate|]. cbn [app] in Hx. injection Hx as <- Hx.
        eapply runs_next with (s' := Cst CValue st' (Some (n, SMap m)) (Some (k ++ kp)) (Some [c]) false root).
        { rewrite Hx, toks_bytes_app. cbn [toks_bytes flat_map tok_bytes app].
          rewrite is_nil_app_cons. unfold cfg_step. cbn -[nl hblank].
          rewrite Hcb, Hch, Hcq, Hcn. reflexivity. }
        rewrite Hx in Hin |- *. apply Forall_app in Hin. destruct Hin as [Hin1 Hin2].
        apply run_toks_esc. exact Hin1.
  - destruct Hv as (Hpre & Hl & Hpost). cbn [survives]. cbn [app].
    destruct (value_text_cons (Plain pre [] []) DQ (toks_bytes l ++ DQ :: post)) as (e & q' & Heq).
    cbn [value_text toks_bytes flat_map] in Heq. rewrite app_nil_r in Heq.
    rewrite Heq. apply run_to_eq; [exact Hk|]. intro st'. rewrite <- Heq.
    apply run_pre; [auto|exact Hpre|].
    eapply runs_next with (s' := Cst CValueQuote st' (Some (n, SMap m)) (Some (k ++ kp)) (Some []) false root).
    { reflexivity. }
    apply runs_toks.
    { revert Hl. apply Forall_impl. intros. apply quoted_tok_in; auto. }
    set (m' := SMap (trie_insert m k (toks_chars l))).
    eapply runs_next with (s' := Cst CValuePostQuoted st' (Some (n, m')) None None false (trie_insert root n m')).
    { unfold cfg_step. cbn -[strip cstr]. rewrite cstr_id.
      - rewrite (strip_key Hk). reflexivity.
      - eapply toks_no_nul; [apply quoted_tok_nul|exact Hl]. }
    rewrite <- (app_nil_r post).
    apply runs_stay; [|apply runs_end'; reflexivity].
    intros p' c q2 Hc. unfold over in Hpost. rewrite Forall_forall in Hpost. apply Hpost in Hc.
    apply in_hblanks in Hc. unfold cfg_step. cbn -[hblank nl]. rewrite Hc. reflexivity.
Qed.

Lemma run_item_end lists v eol p st n l0 root :
  list_line_ok (Item v eol) ->
  Runs lists p (line_text0 (Item v eol)) (at_start st (Some (n, SList l0)) root)
    (inl (if survives (Item v eol)
          then trie_insert root n (SList (l0 ++ [value_of v])) else root)).
Proof.
  intros ((Hv & Hne) & _). cbn [line_text0].
  destruct v as [pre l post|pre l post]; cbn [value_text value_of].
  - destruct Hv as (Hpre & Hl & Hf & Hla & Hpost & Hemp).
    destruct l as [|t l]; [congruence|]. destruct (Hf t l eq_refl) as (c & -> & Hc).
    inversion Hl as [|? ? Hc1 Hl']; subst. simpl in Hc1.
    assert (Hcb : (c == BSL) = false) by (apply eqb_false; intuition).
    assert (Hch : hblank c = false)
      by (apply notin_hblanks; intro; apply Hc; apply in_or_app; auto).
    assert (Hcq : (c == DQ) = false)
      by (apply eqb_false; intro; apply Hc; apply in_or_app; right; left; auto).
    cbn [survives].
    rewrite <- (lits_bytes post) at 1. rewrite <- toks_bytes_app.
    change (map Lit post) with (lits post).
    pose proof (@toks_in_plain CList l post (or_intror eq_refl) Hl' Hpost) as Hin.
    pose proof (full_no_nul Hl Hpost) as Hnn.
    cbn [app]. change (toks_bytes (Lit c :: l ++ lits post)) with (c :: toks_bytes (l ++ lits post)).
    assert (Hval : strip (toks_chars ((Lit c :: l) ++ lits post)) = toks_chars (Lit c :: l)).
    { rewrite toks_chars_app, lits_chars. apply strip_item; assumption. }
    apply run_item_pre; [exact Hpre| |].
    { intro Hi. simpl in Hi, Hc, Hc1. intuition. }
    intro st'. cbn [app] in Hnn, Hval. remember (l ++ lits post) as full eqn:Hfull.
    eapply runs_next with (s' := Cst CList st' (Some (n, SList l0)) None (Some [c]) false root).
    { unfold cfg_step. cbn -[nl hblank]. rewrite Hcb, Hch, Hcq. reflexivity. }
    change (Lit c :: full) with ([Lit c] ++ full) in *.
    rewrite toks_chars_app in Hnn, Hval. cbn [toks_chars map tok_char] in Hnn, Hval.
    destruct (list_last_inv full) as [Hf0|(ts & t & Hf0)].
    + rewrite Hf0 in *. cbn [toks_bytes flat_map length app ends_lit rev andb Nat.ltb Nat.leb].
      rewrite ?andb_false_r. apply runs_end'. reflexivity.
    + rewrite Hf0 in *. apply Forall_app in Hin. destruct Hin as [Hin1 Hin2].
      assert (Hlen : Nat.ltb 1 (length ([Lit c] ++ ts ++ [t])) = true).
      { apply Nat.ltb_lt. rewrite !app_length. simpl. lia. }
      rewrite Hlen, andb_true_r.
      assert (Hends : ends_lit ([Lit c] ++ ts ++ [t]) = match t with Lit _ => true | Esc _ => false end).
      { unfold ends_lit. rewrite app_assoc, rev_app_distr. destruct t; reflexivity. }
      rewrite Hends. destruct t as [x|x].
      * apply run_toks_lit; [exact Hin1|].
        inversion Hin2 as [|? ? Hx2 _]; subst. apply tok_in_lit in Hx2; [|auto].
        eapply runs_next; [apply list_last_step; apply Hx2|].
        apply runs_end'. cbn -[strip rstrip cstr].
        rewrite toks_chars_app in Hnn, Hval.
        change (c :: toks_chars ts ++ [x]) with ([c] ++ toks_chars ts ++ toks_chars [Lit x]).
        rewrite cstr_id by exact Hnn. rewrite Hval. reflexivity.
      * apply run_toks_esc. exact Hin1.
  - destruct Hv as (Hpre & Hl & Hpost). cbn [survives]. cbn [app].
    apply run_item_pre; [exact Hpre| |].
    { intro Hi. simpl in Hi. intuition discriminate. }
    intro st'.
    eapply runs_next with (s' := Cst CListQuote st' (Some (n, SList l0)) None (Some []) false root).
    { reflexivity. }
    apply runs_toks.
    { revert Hl. apply Forall_impl. intros. apply quoted_tok_in; auto. }
    set (l' := SList (l0 ++ [toks_chars l])).
    eapply runs_next with (s' := Cst CListPostQuoted st' (Some (n, l')) None None false (trie_insert root n l')).
    { unfold cfg_step. cbn -[strip cstr]. rewrite cstr_id; [reflexivity|].
      eapply toks_no_nul; [apply quoted_tok_nul|exact Hl]. }
    rewrite <- (app_nil_r post).
    apply runs_stay; [|apply runs_end'; reflexivity].
    intros p' c q2 Hc. unfold over in Hpost. rewrite Forall_forall in Hpost. apply Hpost in Hc.
    apply in_hblanks in Hc. unfold cfg_step. cbn -[hblank nl]. rewrite Hc. reflexivity.
Qed.

(* ---------- whole documents ---------- *)
Lemma flat_map_snoc (A : Type) (f : A -> bytes) l x : flat_map f (l ++ [x]) = flat_map f l ++ f x.
Proof. rewrite flat_map_app. simpl. rewrite app_nil_r. reflexivity. Qed.

Lemma add_line_cases d l :
  (d_secs d = [] /\ add_line d l = Doc (d_pre d ++ [l]) [])
  \/ exists ss n ls, d_secs d = ss ++ [(n, ls)] /\ add_line d l = Doc (d_pre d) (ss ++ [(n, ls ++ [l])]).
Proof.
  unfold add_line. destruct (rev (d_secs d)) as [|[n ls] r] eqn:E.
  - left. split; [|reflexivity]. rewrite <- (rev_involutive (d_secs d)), E. reflexivity.
  - right. exists (rev r), n, ls. split; [|reflexivity].
    rewrite <- (rev_involutive (d_secs d)), E. reflexivity.
Qed.

Lemma add_line_text d l : doc_text (add_line d l) = doc_text d ++ line_text l.
Proof.
  destruct (add_line_cases d l) as [[H1 H2]|(ss & n & ls & H1 & H2)]; rewrite H2; unfold doc_text; rewrite H1;
    cbn [d_pre d_secs].
  - simpl. rewrite !app_nil_r. apply flat_map_snoc.
  - rewrite !flat_map_snoc, <- !app_assoc. do 2 f_equal. unfold section_text. cbn [fst snd].
    rewrite flat_map_snoc. rewrite <- !app_assoc. reflexivity.
Qed.

Lemma add_line_ok_base lists d l : doc_ok lists (add_line d l) -> doc_ok lists d.
Proof.
  intros [Hp Hs]. destruct (add_line_cases d l) as [[H1 H2]|(ss & n & ls & H1 & H2)]; rewrite H2 in *;
    cbn [d_pre d_secs] in *.
  - apply Forall_app in Hp. split; [apply Hp|]. rewrite H1. constructor.
  - split; [exact Hp|]. rewrite H1. apply Forall_app in Hs. destruct Hs as [Hs1 Hs2].
    apply Forall_app. split; [exact Hs1|]. inversion Hs2 as [|? ? (Hn & Ha & Hb) _]; subst.
    constructor; [|constructor]. split; [exact Hn|]. cbn [fst snd] in *. split; intro Hi.
    + specialize (Ha Hi). apply Forall_app in Ha. apply Ha.
    + specialize (Hb Hi). apply Forall_app in Hb. apply Hb.
Qed.

Lemma trie_inserts_app (V : Type) (a b : list (bytes * V)) : forall t,
  trie_inserts (a ++ b) t = trie_inserts b (trie_inserts a t).
Proof. intro t. unfold trie_inserts. apply fold_left_app. Qed.

Lemma eof_parse lists d l : doc_ok lists (add_line d l) ->
  config_parse lists (doc_text d ++ line_text0 l) =
  config_parse lists (doc_text (if survives l then add_line d l else d)).
Proof.
  intro Hok. pose proof (add_line_ok_base Hok) as Hd.
  assert (E : config_parse lists (doc_text (if survives l then add_line d l else d))
    = Ok (inl (trie_inserts (with_data lists (d_secs (if survives l then add_line d l else d))) trie_new))).
  { destruct (survives l); apply doc_parse; assumption. }
  rewrite E. clear E. apply runs_parse.
  destruct Hok as [Hp Hs]. destruct Hd as [Hpd Hsd].
  change init_cst with (at_start 0 None trie_new).
  unfold doc_text. rewrite <- app_assoc. apply run_skips; [exact Hpd|].
  destruct (add_line_cases d l) as [[H1 H2]|(ss & n & ls & H1 & H2)]; rewrite H2 in *;
    cbn [d_pre d_secs] in *.
  - rewrite H1 in *. cbn [flat_map app]. replace (d_secs (if survives l then Doc (d_pre d ++ [l]) [] else d))
      with (@nil (bytes * list line)) by (destruct (survives l); [reflexivity|symmetry; exact H1]).
    simpl. apply run_skip_end. apply Forall_app in Hp. destruct Hp as [_ Hp]. inversion Hp; assumption.
  - rewrite H1 in Hsd. rewrite H1. apply run_sections; [exact Hsd|].
    intros st' sec' _ Hsec. specialize (Hsec ss (n, ls) eq_refl). subst sec'. cbn [fst].
    apply Forall_app in Hs. destruct Hs as [Hs1 Hs2].
    inversion Hs2 as [|? ? (Hn & Ha & Hb) _]; subst. cbn [fst snd] in *.
    assert (Hroot : forall x, trie_inserts (with_data lists (ss ++ [(n, x)])) trie_new
      = trie_insert (trie_inserts (with_data lists ss) trie_new) n (sec_data lists (n, x))).
    { intro x. unfold with_data. rewrite map_app, trie_inserts_app. reflexivity. }
    rewrite Hroot. set (root := trie_inserts (with_data lists ss) trie_new) in *.
    assert (Hres : trie_inserts (with_data lists (d_secs (if survives l
        then Doc (d_pre d) (ss ++ [(n, ls ++ [l])]) else d))) trie_new
      = if survives l then trie_insert root n (sec_data lists (n, ls ++ [l]))
        else trie_insert root n (sec_data lists (n, ls))).
    { destruct (survives l); [apply Hroot|rewrite H1; apply Hroot]. }
    rewrite Hres. clear Hres.
    pose proof (name_no_nul Hn) as Hnn. pose proof (existsb_beq n lists) as Hex.
    assert (Hskip : skip_ok l -> sec_data lists (n, ls ++ [l]) = sec_data lists (n, ls)).
    { unfold sec_data. cbn [fst snd]. unfold items_of, keys_of. rewrite !flat_map_app.
      intro Hsk. destruct l; simpl in *; try contradiction; rewrite !app_nil_r; reflexivity. }
    destruct (existsb (beq n) lists) eqn:El.
    + specialize (Ha (proj1 Hex eq_refl)). apply Forall_app in Ha. destruct Ha as [_ Ha].
      inversion Ha as [|? ? Hl _]; subst.
      destruct l as [w|mk t e|k kp v e|v e]; try contradiction.
      * cbn [survives]. rewrite Hskip by exact Hl. apply run_skip_end. exact Hl.
      * cbn [survives]. rewrite Hskip by exact Hl. apply run_skip_end. exact Hl.
      * unfold sec_data. cbn [fst snd]. rewrite El.
        pose proof (@run_item_end lists v e
          ((flat_map line_text (d_pre d)) ++ flat_map section_text (ss ++ [(n, ls)])) st' n (items_of ls)
          (trie_insert root n (SList (items_of ls))) Hl) as HR.
        rewrite trie_insert_twice in HR by exact Hnn.
        replace (items_of (ls ++ [Item v e])) with (items_of ls ++ [value_of v])
          by (unfold items_of; rewrite flat_map_app; reflexivity).
        exact HR.
    + assert (Hni : ~ In n lists) by (intro Hi; apply Hex in Hi; discriminate).
      specialize (Hb Hni). apply Forall_app in Hb. destruct Hb as [_ Hb].
      inversion Hb as [|? ? Hl _]; subst.
      destruct l as [w|mk t e|k kp v e|v e]; try contradiction.
      * cbn [survives]. rewrite Hskip by exact Hl. apply run_skip_end. exact Hl.
      * cbn [survives]. rewrite Hskip by exact Hl. apply run_skip_end. exact Hl.
      * unfold sec_data. cbn [fst snd]. rewrite El.
        pose proof (@run_key_end lists k kp v e
          ((flat_map line_text (d_pre d)) ++ flat_map section_text (ss ++ [(n, ls)])) st' n
          (trie_inserts (keys_of ls) trie_new)
          (trie_insert root n (SMap (trie_inserts (keys_of ls) trie_new))) Hl) as HR.
        rewrite trie_insert_twice in HR by exact Hnn.
        replace (trie_inserts (keys_of (ls ++ [Key k kp v e])) trie_new)
          with (trie_insert (trie_inserts (keys_of ls) trie_new) k (value_of v))
          by (unfold keys_of; rewrite flat_map_app, trie_inserts_app; reflexivity).
        exact HR.
Qed.
