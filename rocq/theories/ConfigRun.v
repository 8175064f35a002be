(* The parser on well-formed text: lemmas. *)
From Verif Require Import Base Utils Trie TrieProofs UtilsProofs Config ConfigProofs ConfigSpec.

Lemma notin_eqb c x (l : bytes) : ~ In c l -> In x l -> (c == x) = false.
Proof. intros H1 H2. apply eqb_false. intros ->. contradiction. Qed.

Lemma in_hblanks c : In c hblanks <-> hblank c = true.
Proof.
  unfold hblanks, hblank. simpl. rewrite !orb_true_iff, !eqb_true. intuition.
Qed.
Lemma in_newlines c : In c newlines <-> nl c = true.
Proof. unfold newlines, nl. simpl. rewrite !orb_true_iff, !eqb_true. intuition. Qed.
Lemma notin_hblanks c : ~ In c hblanks <-> hblank c = false.
Proof. rewrite in_hblanks. destruct (hblank c); intuition congruence. Qed.
Lemma notin_newlines c : ~ In c newlines <-> nl c = false.
Proof. rewrite in_newlines. destruct (nl c); intuition congruence. Qed.

Lemma hblank_bsl c : hblank c = true -> (c == BSL) = false.
Proof. intro H. apply in_hblanks in H. simpl in H. intuition (subst; reflexivity). Qed.
Lemma nl_bsl c : nl c = true -> (c == BSL) = false /\ hblank c = false /\ (c == DQ) = false.
Proof. intro H. apply in_newlines in H. simpl in H. intuition (subst; reflexivity). Qed.

Lemma is_nil_app_cons (t : bytes) c q : is_nil (t ++ c :: q) = false.
Proof. destruct t; reflexivity. Qed.

Lemma app_cons_assoc (p : bytes) c q : (p ++ [c]) ++ q = p ++ c :: q.
Proof. rewrite <- app_assoc. reflexivity. Qed.

(* bytes that leave the variables alone *)
Lemma runs_stay lists s r t : forall p q,
  (forall p' c q', In c t -> cfg_step lists (p' ++ c :: q') (length p') s c (is_nil q') = Ok (Next s)) ->
  Runs lists (p ++ t) q s r -> Runs lists p (t ++ q) s r.
Proof.
  induction t as [|c t IH]; intros p q Hs H.
  - rewrite app_nil_r in H. exact H.
  - cbn [app]. eapply runs_next; [apply Hs; left; reflexivity|].
    apply IH; [intros; apply Hs; right; assumption|]. rewrite <- app_assoc. exact H.
Qed.

(* same, when the bytes are not the last of the buffer *)
Lemma runs_stay1 lists s r t : forall p e q,
  (forall p' c q', In c t -> cfg_step lists (p' ++ c :: q') (length p') s c false = Ok (Next s)) ->
  Runs lists (p ++ t) (e :: q) s r -> Runs lists p (t ++ e :: q) s r.
Proof.
  induction t as [|c t IH]; intros p e q Hs H.
  - rewrite app_nil_r in H. exact H.
  - cbn [app]. eapply runs_next; [rewrite is_nil_app_cons; apply Hs; left; reflexivity|].
    apply IH; [intros; apply Hs; right; assumption|]. rewrite <- app_assoc. exact H.
Qed.

Definition accumulates (q : cstate) (c : ascii) : Prop :=
  match q with
  | CValue | CList => nl c = false
  | CValueQuote | CListQuote => (c == DQ) = false
  | _ => False
  end.
Definition tok_in (q : cstate) (t : tok) : Prop :=
  match t with
  | Lit c => (c == BSL) = false /\ accumulates q c
  | Esc c => accumulates q "x"%char
  end.

Lemma runs_toks lists q st sec k e rest r l : Forall (tok_in q) l -> forall p v root,
  Runs lists (p ++ toks_bytes l) (e :: rest) (Cst q st sec k (Some (v ++ toks_chars l)) false root) r ->
  Runs lists p (toks_bytes l ++ e :: rest) (Cst q st sec k (Some v) false root) r.
Proof.
  induction 1 as [|t l Ht Hl IH]; intros p v root H.
  - simpl in *. rewrite !app_nil_r in H. exact H.
  - cbn [toks_bytes flat_map toks_chars map]. fold (toks_bytes l).
    rewrite <- app_assoc. destruct t as [c|c]; cbn [tok_bytes app] in *; simpl in Ht.
    + destruct Ht as [Hb Ha].
      eapply runs_next with (s' := Cst q st sec k (Some (v ++ [c])) false root).
      * rewrite is_nil_app_cons. unfold cfg_step. cbn -[nl hblank]. rewrite Hb.
        destruct q; simpl in Ha; try contradiction; rewrite Ha; reflexivity.
      * apply IH. rewrite <- !app_assoc. simpl. exact H.
    + eapply runs_next with (s' := Cst q st sec k (Some v) true root).
      { unfold cfg_step. cbn. rewrite eqb_refl. reflexivity. }
      eapply runs_next with (s' := Cst q st sec k (Some (v ++ [c])) false root).
      { reflexivity. }
      apply IH. rewrite <- !app_assoc. simpl. exact H.
Qed.

(* ---------- lines that mean nothing ---------- *)
Definition at_start (st : nat) (sec : option (bytes * csection)) (root : config) : cst :=
  Cst CStart st sec None None false root.

Lemma run_skip lists l p q st sec root r : skip_ok l ->
  Runs lists (p ++ line_text l) q (at_start st sec root) r ->
  Runs lists p (line_text l ++ q) (at_start st sec root) r.
Proof.
  destruct l as [w|m t e|k kp v e|v e]; simpl; intros Hs H; try contradiction.
  - unfold line_text in *. simpl in *. rewrite app_nil_r in *. apply runs_stay; [|exact H].
    intros p' c q' Hc. unfold over in Hs. rewrite Forall_forall in Hs. apply Hs in Hc. simpl in Hc.
    intuition (subst c; reflexivity).
  - destruct Hs as (Hm & Ht & He). unfold line_text in *. cbn [line_text0 line_eol app] in *.
    rewrite <- app_assoc. cbn [app].
    assert (Hm' : nl m = false /\ ((m == "#"%char) || (m == ";"%char)) = true).
    { simpl in Hm. intuition (subst m; reflexivity). }
    destruct Hm' as [Hm1 Hm2]. apply runs_comment; try assumption.
    + unfold cfg_step. cbn. rewrite Hm2. reflexivity.
    + revert Ht. apply Forall_impl. intros a Ha. apply notin_newlines. exact Ha.
    + apply in_newlines. exact He.
Qed.

Lemma run_skips lists ls : Forall skip_ok ls -> forall p q st sec root r,
  Runs lists (p ++ flat_map line_text ls) q (at_start st sec root) r ->
  Runs lists p (flat_map line_text ls ++ q) (at_start st sec root) r.
Proof.
  induction 1 as [|l ls Hl Hls IH]; intros p q st sec root r H; simpl in *.
  - rewrite app_nil_r in H. exact H.
  - rewrite <- app_assoc. apply run_skip; [exact Hl|]. apply IH. rewrite <- app_assoc. exact H.
Qed.

(* ---------- section header ---------- *)
Definition new_section (lists : list bytes) (name : bytes) : csection :=
  if existsb (beq name) lists then SList [] else SMap trie_new.

Lemma strndup_mid (p t q : bytes) : no_nul t ->
  strndup (skipn (length p) (p ++ t ++ q)) (length (p ++ t) - length p) = t.
Proof.
  intro H. unfold strndup. rewrite skipn_app, skipn_all, Nat.sub_diag. simpl.
  replace (length (p ++ t) - length p) with (length t) by (rewrite app_length; lia).
  rewrite firstn_app, Nat.sub_diag, firstn_all. simpl. rewrite app_nil_r. apply cstr_id. exact H.
Qed.

Lemma run_header lists name p q st sec root r : name_ok name ->
  (forall st', Runs lists (p ++ "["%char :: name ++ ["]"%char]) q
     (at_start st' (Some (name, new_section lists name))
        (trie_insert root name (new_section lists name))) r) ->
  Runs lists p ("["%char :: name ++ "]"%char :: q) (at_start st sec root) r.
Proof.
  intros [Hne Hn] H.
  eapply runs_next with (s' := Cst CSectionStart st sec None None false root); [reflexivity|].
  destruct name as [|c name]; [congruence|]. cbn [app].
  set (n0 := length (p ++ ["["%char])).
  eapply runs_next with (s' := Cst CSection n0 sec None None false root); [reflexivity|].
  apply runs_stay1.
  { intros p' x q' Hx. inversion Hn as [|? ? _ Hn']; subst. rewrite Forall_forall in Hn'.
    specialize (Hn' x Hx). unfold cfg_step. cbn -[nl].
    rewrite (notin_eqb Hn' (or_introl eq_refl)).
    assert (nl x = false) as ->; [|reflexivity].
    apply notin_newlines. intro Hi. apply Hn'. right. right. exact Hi. }
  specialize (H n0).
  eapply runs_next with (s' := at_start n0 (Some (c :: name, new_section lists (c :: name)))
     (trie_insert root (c :: name) (new_section lists (c :: name)))).
  - unfold cfg_step. cbn -[nl]. rewrite eqb_refl. unfold n0.
    replace (((p ++ ["["%char]) ++ [c]) ++ name) with ((p ++ ["["%char]) ++ c :: name)
      by (rewrite <- !app_assoc; reflexivity).
    rewrite <- (app_assoc (p ++ ["["%char]) (c :: name)), strndup_mid; [reflexivity|].
    intro Hi. rewrite Forall_forall in Hn. apply (Hn _ Hi). right. left. reflexivity.
  - rewrite <- !app_assoc. simpl. exact H.
Qed.

(* ---------- key = value ---------- *)
Lemma rstrip_chars x post : over hblanks post ->
  (forall r c, x = r ++ [c] -> ~ In c (hblanks ++ newlines)) -> rstrip (x ++ post) = x.
Proof.
  intros Hp Hx. destruct (rstrip_spec (x ++ post)) as (q & Hq & Hbq & Hlast).
  assert (Hr : rev post ++ rev x = rev q ++ rev (rstrip (x ++ post))).
  { rewrite <- !rev_app_distr. f_equal. exact Hq. }
  apply front_unique in Hr.
  - apply (f_equal (@rev ascii)) in Hr. rewrite !rev_involutive in Hr. symmetry. exact Hr.
  - apply Forall_rev. revert Hp. apply Forall_impl. intros a Ha. simpl in *. unfold blank. simpl. intuition.
  - apply Forall_rev. exact Hbq.
  - intros c t Ht. intro Hb. apply (Hx (rev t) c).
    + rewrite <- (rev_involutive x), Ht. reflexivity.
    + unfold blank in Hb. simpl in *. intuition.
  - intros c t Ht. apply (Hlast (rev t) c). rewrite <- (rev_involutive (rstrip _)), Ht. reflexivity.
Qed.

Lemma strip_key k kp : key_ok k kp -> strip (k ++ kp) = k.
Proof.
  intros (Hn & Hk & (c & t & Hc & Hf) & Hl & Hp). unfold strip. rewrite rstrip_chars.
  - subst k. simpl. replace (strip_blank c) with false; [reflexivity|].
    symmetry. apply strip_blank_false. inversion Hk; subst. intro Hb. unfold blank in Hb. simpl in *.
    intuition.
  - exact Hp.
  - intros t' c' He Hi. apply in_app_or in Hi. destruct Hi as [Hi|Hi]; [exact (Hl t' c' He Hi)|].
    rewrite Forall_forall in Hk. apply (Hk c'); [rewrite He; apply in_or_app; right; left; reflexivity|].
    right. exact Hi.
Qed.

Lemma strip_item l post : plain_first (DQ :: B "#;[") l -> Forall plain_tok l -> plain_last l ->
  over hblanks post ->
  strip (toks_chars l ++ post) = toks_chars l.
Proof.
  intros Hf Hp Hl Ho. unfold strip. rewrite rstrip_chars.
  - destruct l as [|t l]; [reflexivity|]. destruct (Hf t l eq_refl) as (c & -> & Hc).
    simpl. replace (strip_blank c) with false; [reflexivity|].
    symmetry. apply strip_blank_false. inversion Hp; subst. intro Hb. unfold blank in Hb. simpl in *.
    intuition.
  - exact Ho.
  - intros t c He. unfold toks_chars in He. destruct (list_last_inv l) as [->|(l' & x & ->)].
    + destruct t; discriminate.
    + rewrite map_app in He. apply app_inj_tail in He. destruct He as [_ <-]. eapply Hl. reflexivity.
Qed.

Lemma toks_last l : plain_last l -> forall r c, toks_chars l = r ++ [c] -> ~ In c (hblanks ++ newlines).
Proof.
  intros Hl t c He. unfold toks_chars in He. destruct (list_last_inv l) as [->|(l' & x & ->)].
  - destruct t; discriminate.
  - rewrite map_app in He. apply app_inj_tail in He. destruct He as [_ <-]. eapply Hl. reflexivity.
Qed.

Lemma toks_no_nul (P : tok -> Prop) l : (forall t, P t -> tok_char t <> NUL) -> Forall P l ->
  no_nul (toks_chars l).
Proof.
  intros HP. induction 1 as [|t l Ht Hl IH]; [apply no_nul_nil|]. simpl. apply no_nul_cons. auto.
Qed.
Lemma plain_tok_nul t : plain_tok t -> tok_char t <> NUL.
Proof. destruct t; simpl; intuition. Qed.
Lemma quoted_tok_nul t : quoted_tok t -> tok_char t <> NUL.
Proof. destruct t; simpl; intuition. Qed.
Lemma over_no_nul w : over hblanks w -> no_nul w.
Proof.
  induction 1 as [|c w Hc Hw IH]; [apply no_nul_nil|]. apply no_nul_cons. split; [|exact IH].
  simpl in Hc. intuition (subst; discriminate).
Qed.

Lemma plain_tok_in q t : (q = CValue \/ q = CList) -> plain_tok t -> tok_in q t.
Proof.
  intros Hq Ht. destruct t as [c|c]; simpl in *.
  - split; [apply eqb_false; intuition|].
    assert (nl c = false) by (apply notin_newlines; simpl; intuition).
    destruct Hq; subst; exact H.
  - destruct Hq; subst; reflexivity.
Qed.
Lemma quoted_tok_in q t : (q = CValueQuote \/ q = CListQuote) -> quoted_tok t -> tok_in q t.
Proof.
  intros Hq Ht. destruct t as [c|c]; simpl in *.
  - split; [apply eqb_false; intuition|].
    assert ((c == DQ) = false) by (apply eqb_false; intuition).
    destruct Hq; subst; exact H.
  - destruct Hq; subst; reflexivity.
Qed.

Definition lits (w : bytes) : list tok := map Lit w.
Lemma lits_bytes w : toks_bytes (lits w) = w.
Proof. induction w as [|c w IH]; simpl; [|rewrite IH]; reflexivity. Qed.
Lemma lits_chars w : toks_chars (lits w) = w.
Proof. induction w as [|c w IH]; simpl; [|rewrite IH]; reflexivity. Qed.
Lemma lits_blank q w : (q = CValue \/ q = CList) -> over hblanks w -> Forall (tok_in q) (lits w).
Proof.
  intros Hq Hw. unfold lits. apply Forall_map. revert Hw. apply Forall_impl. intros c Hc.
  apply in_hblanks in Hc. simpl. split; [apply hblank_bsl; exact Hc|].
  assert (nl c = false).
  { apply in_hblanks in Hc. simpl in Hc. intuition (subst; reflexivity). }
  destruct Hq; subst; exact H.
Qed.
Lemma toks_bytes_app a b : toks_bytes (a ++ b) = toks_bytes a ++ toks_bytes b.
Proof. apply flat_map_app. Qed.
Lemma toks_chars_app a b : toks_chars (a ++ b) = toks_chars a ++ toks_chars b.
Proof. apply map_app. Qed.

Lemma run_pre lists q w p e rest st sec k root r : (q = CValueStart \/ q = CListStart) ->
  over hblanks w ->
  Runs lists (p ++ w) (e :: rest) (Cst q st sec k (Some []) false root) r ->
  Runs lists p (w ++ e :: rest) (Cst q st sec k (Some []) false root) r.
Proof.
  intros Hq Hw. apply runs_stay1. intros p' c q' Hc. unfold over in Hw. rewrite Forall_forall in Hw.
  apply Hw in Hc. apply in_hblanks in Hc. unfold cfg_step. cbn -[hblank nl].
  rewrite (hblank_bsl Hc). destruct Hq; subst q; rewrite Hc; reflexivity.
Qed.

(* from '=' to the end of the line *)
Lemma run_value lists v eol p q st n m k root r :
  value_ok [] v -> In eol newlines ->
  let m' := SMap (trie_insert m (strip k) (value_of v)) in
  Runs lists (p ++ value_text v ++ [eol]) q (at_start st (Some (n, m')) (trie_insert root n m')) r ->
  Runs lists p (value_text v ++ eol :: q)
    (Cst CValueStart st (Some (n, SMap m)) (Some k) (Some []) false root) r.
Proof.
  intros Hv He m' H. apply in_newlines in He. destruct (nl_bsl He) as (He1 & He2 & He3).
  destruct v as [pre l post|pre l post]; cbn [value_text value_of] in *.
  - destruct Hv as (Hpre & Hl & Hf & Hla & Hpost & Hemp).
    rewrite <- !app_assoc.
    destruct l as [|t l].
    + rewrite (Hemp eq_refl) in *. cbn [toks_bytes flat_map app] in *.
      apply run_pre; [auto|exact Hpre|].
      eapply runs_again with (s' := Cst CValue st (Some (n, SMap m)) (Some k) (Some []) false root).
      { unfold cfg_step. cbn -[hblank nl]. rewrite He1, He2, He3, He. reflexivity. }
      eapply runs_next with (s' := at_start st (Some (n, m')) (trie_insert root n m')).
      { unfold cfg_step. cbn -[hblank nl strip rstrip cstr]. rewrite He1, He. simpl.
        rewrite andb_false_r. reflexivity. }
      rewrite <- app_assoc. rewrite app_nil_r in H. exact H.
    + destruct (Hf t l eq_refl) as (c & -> & Hc).
      cbn [toks_bytes flat_map tok_bytes app]. fold (toks_bytes l).
      apply run_pre; [auto|exact Hpre|].
      inversion Hl as [|? ? Hc1 Hl']; subst. simpl in Hc1.
      eapply runs_next with (s' := Cst CValue st (Some (n, SMap m)) (Some k) (Some [c]) false root).
      { rewrite app_assoc, is_nil_app_cons. unfold cfg_step. cbn -[hblank nl].
        rewrite (proj2 (eqb_false c BSL)) by intuition.
        rewrite (proj1 (notin_hblanks c)) by (intro; apply Hc; apply in_or_app; auto).
        rewrite (proj2 (eqb_false c DQ))
          by (intro; apply Hc; apply in_or_app; right; left; auto).
        rewrite (proj1 (notin_newlines c)) by (simpl; intuition). reflexivity. }
      rewrite app_assoc. rewrite <- (lits_bytes post) at 1. rewrite <- toks_bytes_app.
      apply runs_toks.
      { apply Forall_app. split; [|apply lits_blank; auto].
        revert Hl'. apply Forall_impl. intros. apply plain_tok_in; auto. }
      eapply runs_next with (s' := at_start st (Some (n, m')) (trie_insert root n m')).
      { unfold cfg_step. cbn -[hblank nl strip rstrip cstr]. rewrite He1, He. simpl orb. cbv iota.
        rewrite andb_false_r. cbn -[hblank nl strip rstrip cstr].
        rewrite cstr_id, toks_chars_app, lits_chars.
        - change (c :: toks_chars l ++ post) with (toks_chars (Lit c :: l) ++ post).
          rewrite rstrip_chars; [reflexivity|exact Hpost|]. apply toks_last. exact Hla.
        - rewrite toks_chars_app, lits_chars.
          change (no_nul (toks_chars (Lit c :: l) ++ post)). apply no_nul_app. split.
          + eapply toks_no_nul; [apply plain_tok_nul|exact Hl].
          + apply over_no_nul. exact Hpost. }
      rewrite toks_bytes_app, lits_bytes. rewrite <- ?app_assoc in *. simpl in *.
      fold (toks_bytes l) in H. exact H.
  - destruct Hv as (Hpre & Hl & Hpost). rewrite <- !app_assoc. cbn [app].
    apply run_pre; [auto|exact Hpre|].
    eapply runs_next with (s' := Cst CValueQuote st (Some (n, SMap m)) (Some k) (Some []) false root).
    { reflexivity. }
    rewrite <- app_assoc. cbn [app]. apply runs_toks.
    { revert Hl. apply Forall_impl. intros. apply quoted_tok_in; auto. }
    eapply runs_next with (s' := Cst CValuePostQuoted st (Some (n, m')) None None false (trie_insert root n m')).
    { unfold cfg_step. cbn -[strip cstr]. rewrite cstr_id; [reflexivity|].
      eapply toks_no_nul; [apply quoted_tok_nul|exact Hl]. }
    apply runs_stay1.
    { intros p' c q' Hc. unfold over in Hpost. rewrite Forall_forall in Hpost. apply Hpost in Hc.
      apply in_hblanks in Hc. unfold cfg_step. cbn -[hblank nl]. rewrite Hc. reflexivity. }
    eapply runs_next with (s' := at_start st (Some (n, m')) (trie_insert root n m')).
    { unfold cfg_step. cbn -[hblank nl]. rewrite He2, He. reflexivity. }
    rewrite <- ?app_assoc in *. simpl in *. exact H.
Qed.

Lemma run_key_name lists k kp p q st n m root r : key_ok k kp ->
  Runs lists (p ++ k ++ kp) ("="%char :: q)
     (Cst CKey (length p) (Some (n, SMap m)) None None false root) r ->
  Runs lists p (k ++ kp ++ "="%char :: q) (at_start st (Some (n, SMap m)) root) r.
Proof.
  intros Hok H. pose proof Hok as (Hn & Hk & (c & k' & Hc & Hf) & Hl & Hp).
  assert (Hno : forall x, In x (k ++ kp) -> (x == "="%char) = false /\ nl x = false).
  { intros x Hx. apply in_app_or in Hx. destruct Hx as [Hx|Hx].
    - rewrite Forall_forall in Hk. apply Hk in Hx. split; [apply eqb_false; simpl in Hx; intuition|].
      apply notin_newlines. intro; apply Hx; right; assumption.
    - unfold over in Hp. rewrite Forall_forall in Hp. apply Hp in Hx. simpl in Hx.
      intuition (subst; reflexivity). }
  assert (Hkk : exists t, k ++ kp = c :: t) by (rewrite Hc; simpl; eauto).
  destruct Hkk as (t & Ht). rewrite app_assoc, Ht. cbn [app].
  eapply runs_again with (s' := Cst CKey (length p) (Some (n, SMap m)) None None false root).
  { assert (nl c = false) as Hnl by (apply Hno; rewrite Ht; left; reflexivity).
    unfold nl in Hnl. apply orb_false_iff in Hnl. destruct Hnl as [Hcr Hlf].
    unfold cfg_step. cbn -[hblank nl].
    rewrite (proj2 (eqb_false c "#"%char)) by (intros ->; apply Hf; simpl; auto 10).
    rewrite (proj2 (eqb_false c ";"%char)) by (intros ->; apply Hf; simpl; auto 10).
    rewrite (proj2 (eqb_false c "["%char)) by (intros ->; apply Hf; simpl; auto 10).
    rewrite (proj2 (eqb_false c SP)) by (intros ->; apply Hf; simpl; auto 10).
    rewrite (proj2 (eqb_false c TAB)) by (intros ->; apply Hf; simpl; auto 10).
    rewrite Hcr, Hlf. reflexivity. }
  change (c :: t ++ "="%char :: q) with ((c :: t) ++ "="%char :: q). rewrite <- Ht.
  apply runs_stay1; [|exact H].
  intros p' x q' Hx. destruct (Hno x Hx) as [H1 H2]. unfold cfg_step. cbn -[nl].
  rewrite H1, H2. reflexivity.
Qed.

Lemma key_no_nul k kp : key_ok k kp -> no_nul (k ++ kp).
Proof.
  intros (Hn & _ & _ & _ & Hp). apply no_nul_app. split; [exact Hn|]. apply over_no_nul. exact Hp.
Qed.

Lemma run_to_eq lists k kp p e q st n m root r : key_ok k kp ->
  (forall st', Runs lists (p ++ k ++ kp ++ ["="%char]) (e :: q)
     (Cst CValueStart st' (Some (n, SMap m)) (Some (k ++ kp)) (Some []) false root) r) ->
  Runs lists p (k ++ kp ++ "="%char :: e :: q) (at_start st (Some (n, SMap m)) root) r.
Proof.
  intros Hok H. apply run_key_name; [exact Hok|].
  eapply runs_next with (s' := Cst CValueStart (length p) (Some (n, SMap m)) (Some (k ++ kp)) (Some []) false root).
  { unfold cfg_step. cbn -[nl skipn]. rewrite <- app_assoc.
    rewrite strndup_mid; [reflexivity|]. apply key_no_nul. exact Hok. }
  specialize (H (length p)). rewrite <- !app_assoc. exact H.
Qed.

Lemma value_text_cons v eol q : exists e q', value_text v ++ eol :: q = e :: q'.
Proof. destruct (value_text v); simpl; eauto. Qed.

Lemma run_key lists k kp v eol p q st n m root r :
  map_line_ok (Key k kp v eol) ->
  let m' := SMap (trie_insert m k (value_of v)) in
  (forall st', Runs lists (p ++ line_text (Key k kp v eol)) q
      (at_start st' (Some (n, m')) (trie_insert root n m')) r) ->
  Runs lists p (line_text (Key k kp v eol) ++ q) (at_start st (Some (n, SMap m)) root) r.
Proof.
  intros (Hk & Hv & He) m' H. unfold line_text in *. cbn [line_text0 line_eol] in *.
  destruct (value_text_cons v eol q) as (e & q' & Heq).
  repeat rewrite <- app_assoc. cbn [app]. rewrite Heq.
  apply run_to_eq; [exact Hk|]. intro st'. rewrite <- Heq. apply run_value; [exact Hv|exact He|].
  rewrite (strip_key Hk). specialize (H st'). rewrite <- ?app_assoc in *. exact H.
Qed.

(* ---------- list items ---------- *)
Definition item_start (c : ascii) : Prop := ~ In c [SP; TAB; CR; LF; "#"%char; ";"%char; "["%char].

(* reading the blanks before an item, then the first byte of the item *)
Lemma run_item_pre lists pre c rest p st n l root r :
  over hblanks pre -> item_start c ->
  (forall st', Runs lists (p ++ pre) (c :: rest)
     (Cst CListStart st' (Some (n, SList l)) None (Some []) false root) r) ->
  Runs lists p (pre ++ c :: rest) (at_start st (Some (n, SList l)) root) r.
Proof.
  intros Hp Hc. revert p. induction Hp as [|x pre Hx Hp IH]; intros p H.
  - cbn [app] in *. rewrite app_nil_r in H.
    eapply runs_again; [|apply (H (length p))].
    unfold cfg_step. cbn -[nl hblank].
    rewrite !(proj2 (eqb_false c _)) by (intros ->; apply Hc; simpl; auto 10). reflexivity.
  - cbn [app] in *.
    assert (Hx' : (x = SP \/ x = TAB) \/ (x = FF \/ x = VT)) by (simpl in Hx; intuition).
    destruct Hx' as [Hx'|Hx'].
    + eapply runs_next with (s' := at_start st (Some (n, SList l)) root).
      { destruct Hx'; subst x; reflexivity. }
      apply IH. intro st'. rewrite <- app_assoc. apply H.
    + eapply runs_again with (s' := Cst CListStart (length p) (Some (n, SList l)) None (Some []) false root).
      { destruct Hx'; subst x; reflexivity. }
      change (x :: pre ++ c :: rest) with ((x :: pre) ++ c :: rest).
      apply run_pre; [auto|constructor; assumption|]. apply H.
Qed.

Lemma run_item lists v eol p q st n l root r :
  list_line_ok (Item v eol) ->
  let l' := SList (l ++ [value_of v]) in
  (forall st', Runs lists (p ++ line_text (Item v eol)) q
      (at_start st' (Some (n, l')) (trie_insert root n l')) r) ->
  Runs lists p (line_text (Item v eol) ++ q) (at_start st (Some (n, SList l)) root) r.
Proof.
  intros ((Hv & Hne) & He) l' H. apply in_newlines in He. destruct (nl_bsl He) as (He1 & He2 & He3).
  unfold line_text in *. cbn [line_text0 line_eol] in *.
  destruct v as [pre t post|pre t post]; cbn [value_text value_of] in *.
  - destruct Hv as (Hpre & Hl & Hf & Hla & Hpost & Hemp).
    destruct t as [|t0 t]; [congruence|]. destruct (Hf t0 t eq_refl) as (c & -> & Hc).
    inversion Hl as [|? ? Hc1 Hl']; subst. simpl in Hc1.
    rewrite <- !app_assoc. cbn [toks_bytes flat_map tok_bytes app]. fold (toks_bytes t).
    apply run_item_pre; [exact Hpre| |].
    { intro Hi. simpl in Hi, Hc, Hc1. intuition. }
    intro st'.
    eapply runs_next with (s' := Cst CList st' (Some (n, SList l)) None (Some [c]) false root).
    { rewrite app_assoc, is_nil_app_cons. unfold cfg_step. cbn -[hblank nl].
      rewrite (proj2 (eqb_false c BSL)) by intuition.
      rewrite (proj1 (notin_hblanks c)) by (intro; apply Hc; apply in_or_app; auto).
      rewrite (proj2 (eqb_false c DQ))
        by (intro; apply Hc; apply in_or_app; right; left; auto). reflexivity. }
    rewrite app_assoc. rewrite <- (lits_bytes post) at 1. rewrite <- toks_bytes_app.
    apply runs_toks.
    { apply Forall_app. split; [|apply lits_blank; auto].
      revert Hl'. apply Forall_impl. intros. apply plain_tok_in; auto. }
    eapply runs_next with (s' := at_start st' (Some (n, l')) (trie_insert root n l')).
    { unfold cfg_step. cbn -[hblank nl strip rstrip cstr]. rewrite He1, He. simpl orb. cbv iota.
      rewrite andb_false_r. cbn -[hblank nl strip rstrip cstr].
      rewrite cstr_id, toks_chars_app, lits_chars.
      - change (c :: toks_chars t ++ post) with (toks_chars (Lit c :: t) ++ post).
        rewrite strip_item; try assumption. reflexivity.
      - rewrite toks_chars_app, lits_chars.
        change (no_nul (toks_chars (Lit c :: t) ++ post)). apply no_nul_app. split.
        + eapply toks_no_nul; [apply plain_tok_nul|exact Hl].
        + apply over_no_nul. exact Hpost. }
    specialize (H st'). rewrite toks_bytes_app, lits_bytes. rewrite <- ?app_assoc in *. simpl in *.
    fold (toks_bytes t) in H. exact H.
  - destruct Hv as (Hpre & Hl & Hpost). rewrite <- !app_assoc. cbn [app].
    apply run_item_pre; [exact Hpre| |].
    { intro Hi. simpl in Hi. intuition discriminate. }
    intro st'.
    eapply runs_next with (s' := Cst CListQuote st' (Some (n, SList l)) None (Some []) false root).
    { reflexivity. }
    rewrite <- app_assoc. cbn [app]. apply runs_toks.
    { revert Hl. apply Forall_impl. intros. apply quoted_tok_in; auto. }
    eapply runs_next with (s' := Cst CListPostQuoted st' (Some (n, l')) None None false (trie_insert root n l')).
    { unfold cfg_step. cbn -[strip cstr]. rewrite cstr_id; [reflexivity|].
      eapply toks_no_nul; [apply quoted_tok_nul|exact Hl]. }
    rewrite <- app_assoc. cbn [app].
    apply runs_stay1.
    { intros p' c q' Hc. unfold over in Hpost. rewrite Forall_forall in Hpost. apply Hpost in Hc.
      apply in_hblanks in Hc. unfold cfg_step. cbn -[hblank nl]. rewrite Hc. reflexivity. }
    eapply runs_next with (s' := at_start st' (Some (n, l')) (trie_insert root n l')).
    { unfold cfg_step. cbn -[hblank nl]. rewrite He2, He. reflexivity. }
    specialize (H st').
    rewrite <- ?app_assoc in *. simpl in *. rewrite <- ?app_assoc in *. exact H.
Qed.

(* ---------- whole documents ---------- *)
Lemma insert_go_twice (V : Type) k (v v' : V) : no_nul k -> forall t,
  fst (insert_go (k ++ [NUL]) v' (fst (insert_go (k ++ [NUL]) v t))) = fst (insert_go (k ++ [NUL]) v' t).
Proof.
  induction k as [|c k IH]; intros Hk t.
  - simpl app. induction t as [|c0 d ch _ nx IHn].
    + reflexivity.
    + rewrite !insert_node. destruct (c0 == NUL) eqn:E.
      * rewrite eqb_refl. cbn [fst]. rewrite insert_node, E, eqb_refl. reflexivity.
      * destruct (insert_go [NUL] v nx) as [nx1 f1]. destruct (insert_go [NUL] v' nx) as [nx2 f2].
        cbn [fst] in *. rewrite insert_node, E. destruct (insert_go [NUL] v' nx1) as [nx3 f3].
        cbn [fst] in *. subst. reflexivity.
  - apply no_nul_cons in Hk. destruct Hk as [Hc Hk]. apply eqb_false in Hc.
    rewrite cons_app_nul. induction t as [|c0 d ch _ nx IHn].
    + rewrite !insert_nil, Hc. specialize (IH Hk Nil).
      destruct (insert_go (k ++ [NUL]) v Nil) as [a fa]. destruct (insert_go (k ++ [NUL]) v' Nil) as [b fb].
      cbn [fst] in *. rewrite insert_node, eqb_refl, Hc.
      destruct (insert_go (k ++ [NUL]) v' a) as [e fe]. cbn [fst] in *. subst. reflexivity.
    + rewrite !insert_node, Hc. destruct (c0 == c) eqn:E.
      * specialize (IH Hk ch).
        destruct (insert_go (k ++ [NUL]) v ch) as [a fa]. destruct (insert_go (k ++ [NUL]) v' ch) as [b fb].
        cbn [fst] in *. rewrite insert_node, E, Hc.
        destruct (insert_go (k ++ [NUL]) v' a) as [e fe]. cbn [fst] in *. subst. reflexivity.
      * destruct (insert_go (c :: k ++ [NUL]) v nx) as [a fa].
        destruct (insert_go (c :: k ++ [NUL]) v' nx) as [b fb].
        cbn [fst] in *. rewrite insert_node, E.
        destruct (insert_go (c :: k ++ [NUL]) v' a) as [e fe]. cbn [fst] in *. subst. reflexivity.
Qed.

Lemma trie_insert_twice (V : Type) (t : trie V) k v v' : no_nul k ->
  trie_insert (trie_insert t k v) k v' = trie_insert t k v'.
Proof. intro H. apply insert_go_twice. exact H. Qed.

Lemma name_no_nul n : name_ok n -> no_nul n.
Proof. intros [_ H] Hi. rewrite Forall_forall in H. apply (H _ Hi). right. left. reflexivity. Qed.

Lemma run_map_lines lists ls n r : no_nul n -> Forall map_line_ok ls -> forall p q st m root,
  let m' := SMap (trie_inserts (keys_of ls) m) in
  (forall st', Runs lists (p ++ flat_map line_text ls) q
     (at_start st' (Some (n, m')) (trie_insert root n m')) r) ->
  Runs lists p (flat_map line_text ls ++ q)
    (at_start st (Some (n, SMap m)) (trie_insert root n (SMap m))) r.
Proof.
  intros Hn. induction 1 as [|l ls Hl Hls IH]; intros p q st m root m' H.
  - simpl in *. rewrite app_nil_r in H. apply H.
  - cbn [flat_map] in *. rewrite <- app_assoc.
    destruct l as [w|mk t e|k kp v e|v e].
    + apply run_skip; [exact Hl|]. apply IH. intro st'. rewrite <- app_assoc. apply H.
    + apply run_skip; [exact Hl|]. apply IH. intro st'. rewrite <- app_assoc. apply H.
    + apply run_key; [exact Hl|]. intro st'. rewrite trie_insert_twice by exact Hn.
      apply IH. intro st2. rewrite <- app_assoc. apply H.
    + contradiction.
Qed.

Lemma run_list_lines lists ls n r : no_nul n -> Forall list_line_ok ls -> forall p q st l0 root,
  let l' := SList (l0 ++ items_of ls) in
  (forall st', Runs lists (p ++ flat_map line_text ls) q
     (at_start st' (Some (n, l')) (trie_insert root n l')) r) ->
  Runs lists p (flat_map line_text ls ++ q)
    (at_start st (Some (n, SList l0)) (trie_insert root n (SList l0))) r.
Proof.
  intros Hn. induction 1 as [|l ls Hl Hls IH]; intros p q st l0 root l' H.
  - simpl in *. unfold l' in H. rewrite !app_nil_r in H. apply H.
  - cbn [flat_map] in *. rewrite <- app_assoc. unfold l' in H. clear l'.
    destruct l as [w|mk t e|k kp v e|v e].
    + apply run_skip; [exact Hl|]. apply IH. intro st'. rewrite <- app_assoc. apply H.
    + apply run_skip; [exact Hl|]. apply IH. intro st'. rewrite <- app_assoc. apply H.
    + contradiction.
    + apply run_item; [exact Hl|]. intro st'. rewrite trie_insert_twice by exact Hn.
      apply IH. intro st2. rewrite <- !app_assoc. apply H.
Qed.

(* the section struct a section of the document becomes *)
Definition sec_data (lists : list bytes) (s : bytes * list line) : csection :=
  if existsb (beq (fst s)) lists then SList (items_of (snd s))
  else SMap (trie_inserts (keys_of (snd s)) trie_new).

Lemma existsb_beq n lists : existsb (beq n) lists = true <-> In n lists.
Proof.
  rewrite existsb_exists. split.
  - intros (x & Hx & E). apply beq_eq in E. subst. exact Hx.
  - intro H. exists n. split; [exact H|apply beq_refl].
Qed.

Lemma run_section lists s : section_ok lists s -> forall p q st sec root r,
  (forall st', Runs lists (p ++ section_text s) q
     (at_start st' (Some (fst s, sec_data lists s)) (trie_insert root (fst s) (sec_data lists s))) r) ->
  Runs lists p (section_text s ++ q) (at_start st sec root) r.
Proof.
  destruct s as [n ls]. intros (Hn & Hl & Hm) p q st sec root r H. simpl fst in *. simpl snd in *.
  unfold section_text, sec_data in *. cbn [fst snd] in *. cbn [app] in *.
  rewrite <- app_assoc. cbn [app]. apply run_header; [exact Hn|]. intro st1.
  unfold new_section. pose proof (existsb_beq n lists) as Hex.
  destruct (existsb (beq n) lists) eqn:E.
  - apply run_list_lines; [apply name_no_nul; exact Hn|apply Hl; apply Hex; reflexivity|].
    intro st2. rewrite <- ?app_assoc in *. cbn [app] in *. specialize (H st2).
    rewrite <- ?app_assoc in *. exact H.
  - apply run_map_lines; [apply name_no_nul; exact Hn| |].
    + apply Hm. intro Hi. apply Hex in Hi. discriminate.
    + intro st2. rewrite <- ?app_assoc in *. cbn [app] in *. specialize (H st2).
      rewrite <- ?app_assoc in *. exact H.
Qed.

Definition with_data (lists : list bytes) (secs : list (bytes * list line)) : list (bytes * csection) :=
  map (fun s => (fst s, sec_data lists s)) secs.

Lemma run_sections lists secs : Forall (section_ok lists) secs -> forall p q st sec root r,
  (forall st' sec', (secs = [] -> sec' = sec) ->
     (forall s0 s, secs = s0 ++ [s] -> sec' = Some (fst s, sec_data lists s)) ->
     Runs lists (p ++ flat_map section_text secs) q
     (at_start st' sec' (trie_inserts (with_data lists secs) root)) r) ->
  Runs lists p (flat_map section_text secs ++ q) (at_start st sec root) r.
Proof.
  induction 1 as [|s secs Hs Hss IH]; intros p q st sec root r H.
  - simpl in *. rewrite app_nil_r in H. apply H; [reflexivity|]. intros [|] ? ?; discriminate.
  - cbn [flat_map] in *. rewrite <- app_assoc. apply run_section; [exact Hs|]. intro st'.
    apply IH. intros st2 sec2 Hs1 Hs2. rewrite <- app_assoc. apply H.
    + intro; discriminate.
    + intros s0 s1 He. destruct s0 as [|s0' s0]; simpl in He; injection He as <- He.
      * subst secs. apply Hs1. reflexivity.
      * eapply Hs2. exact He.
Qed.

Lemma doc_parse lists d : doc_ok lists d ->
  config_parse lists (doc_text d) = Ok (inl (trie_inserts (with_data lists (d_secs d)) trie_new)).
Proof.
  intros [Hp Hs]. apply runs_parse. unfold doc_text.
  change init_cst with (at_start 0 None trie_new). apply run_skips; [exact Hp|].
  rewrite <- (app_nil_r (flat_map section_text (d_secs d))).
  apply run_sections; [exact Hs|]. intros st' sec' _ _.
  change (inl (trie_inserts (with_data lists (d_secs d)) trie_new))
    with (@inl config cerror (c_root (at_start st' sec' (trie_inserts (with_data lists (d_secs d)) trie_new)))).
  apply runs_end.
Qed.

Lemma last_value_with_data lists secs name :
  last_value (with_data lists secs) name
  = option_map (fun body => sec_data lists (name, body)) (last_value secs name).
Proof.
  induction secs as [|[n b] secs IH]; [reflexivity|]. cbn [with_data map last_value fst].
  fold (with_data lists secs). rewrite IH. destruct (last_value secs name); [reflexivity|].
  simpl. destruct (beq_spec n name) as [->|]; reflexivity.
Qed.

Lemma with_data_keys lists secs : Forall (section_ok lists) secs -> keys_ok (with_data lists secs).
Proof.
  unfold keys_ok, with_data. intro H. apply Forall_map. revert H. apply Forall_impl.
  intros s [Hn _]. apply name_no_nul. exact Hn.
Qed.

Lemma keys_of_ok ls : Forall map_line_ok ls -> keys_ok (keys_of ls).
Proof.
  induction 1 as [|l ls Hl Hls IH]; [constructor|]. unfold keys_ok, keys_of in *. cbn [flat_map].
  apply Forall_app. split; [|exact IH]. destruct l; constructor; [|constructor]. apply Hl.
Qed.

Lemma last_value_section_ok lists secs name body : Forall (section_ok lists) secs ->
  last_value secs name = Some body -> section_ok lists (name, body).
Proof.
  induction 1 as [|[n b] secs Hs Hss IH]; intro H; [discriminate|]. cbn [last_value] in H.
  destruct (last_value secs name); [auto|]. destruct (beq_spec n name) as [->|]; [|discriminate].
  injection H as ->. exact Hs.
Qed.

Lemma foreach_keys (V : Type) (h : list (bytes * V)) : keys_ok h ->
  NoDup (map fst (trie_foreach (trie_inserts h trie_new)))
  /\ forall k, In k (map fst (trie_foreach (trie_inserts h trie_new))) <-> In k (map fst h).
Proof.
  intro H. destruct (trie_foreach_spec H) as (H1 & H2 & _). split; [exact H1|]. intro k.
  rewrite in_map_iff. split.
  - intros ([k' d] & <- & Hin). apply H2 in Hin. destruct Hin as (v & -> & Hv). simpl.
    apply last_value_in. eauto.
  - intro Hin. destruct (last_value h k) as [v|] eqn:E.
    + exists (k, Some v). split; [reflexivity|]. apply H2. eauto.
    + exfalso. apply (@last_value_in _ h k) in Hin. destruct Hin as [v Hv]. congruence.
Qed.

(* what the getters answer on a parsed document *)
Lemma doc_observed lists d : doc_ok lists d ->
  let cfg := trie_inserts (with_data lists (d_secs d)) trie_new in
  (NoDup (config_list_sections cfg)
   /\ forall n, In n (config_list_sections cfg) <-> In n (map fst (d_secs d)))
  /\ forall sec, no_nul sec ->
     match doc_section d sec with
     | None => config_list_keys cfg sec = None /\ config_get_list cfg sec = None
               /\ forall k, config_get cfg sec k = None
     | Some body =>
         (In sec lists -> config_get_list cfg sec = Some (items_of body)
            /\ config_list_keys cfg sec = None /\ forall k, config_get cfg sec k = None)
         /\ (~ In sec lists -> config_get_list cfg sec = None
            /\ (forall k, no_nul k -> config_get cfg sec k = last_value (keys_of body) k)
            /\ exists ks, config_list_keys cfg sec = Some ks /\ NoDup ks
                 /\ forall k, In k ks <-> In k (map fst (keys_of body)))
     end.
Proof.
  intros [Hp Hs] cfg. pose proof (with_data_keys Hs) as Hk. split.
  - unfold config_list_sections. destruct (foreach_keys Hk) as [H1 H2]. split; [exact H1|].
    intro n. unfold cfg. rewrite H2. unfold with_data. rewrite map_map. reflexivity.
  - intros sec Hsec. unfold config_list_keys, config_get_list, config_get, cfg.
    rewrite (trie_history Hk Hsec), last_value_with_data. unfold doc_section.
    destruct (last_value (d_secs d) sec) as [body|] eqn:E; [|simpl; auto].
    simpl option_map. unfold sec_data. cbn [fst snd]. pose proof (existsb_beq sec lists) as Hex.
    destruct (last_value_section_ok Hs E) as (_ & _ & Hm). cbn [fst snd] in Hm.
    destruct (existsb (beq sec) lists).
    + split; [auto|]. intro Hn. destruct Hn. apply Hex. reflexivity.
    + split; [intro Hi; apply Hex in Hi; discriminate|]. intro Hn.
      pose proof (keys_of_ok (Hm Hn)) as Hko. split; [reflexivity|]. split.
      * intros k Hkn. apply trie_history; assumption.
      * eexists. split; [reflexivity|]. apply foreach_keys. exact Hko.
Qed.

Lemma doc_means lists d : doc_ok lists d -> exists cfg,
  config_parse lists (doc_text d) = Ok (inl cfg)
  /\ (NoDup (config_list_sections cfg)
      /\ forall n, In n (config_list_sections cfg) <-> In n (map fst (d_secs d)))
  /\ forall sec, no_nul sec ->
     match doc_section d sec with
     | None => config_list_keys cfg sec = None /\ config_get_list cfg sec = None
               /\ forall k, config_get cfg sec k = None
     | Some body =>
         (In sec lists -> config_get_list cfg sec = Some (items_of body)
            /\ config_list_keys cfg sec = None /\ forall k, config_get cfg sec k = None)
         /\ (~ In sec lists -> config_get_list cfg sec = None
            /\ (forall k, no_nul k -> config_get cfg sec k = last_value (keys_of body) k)
            /\ exists ks, config_list_keys cfg sec = Some ks /\ NoDup ks
                 /\ forall k, In k ks <-> In k (map fst (keys_of body)))
     end.
Proof.
  intro H. eexists. split; [apply doc_parse; exact H|]. apply (doc_observed H).
Qed.

(* every NUL-free value can be written: quoted, with each byte escaped *)
Lemma quoted_any lists sec k v : name_ok sec -> ~ In sec lists -> key_ok k [] -> no_nul v ->
  exists cfg,
    config_parse lists (["["%char] ++ sec ++ B "]" ++ [LF] ++ k ++ B "=" ++ [DQ]
                        ++ flat_map (fun c => [BSL; c]) v ++ [DQ; LF]) = Ok (inl cfg)
    /\ config_get cfg sec k = Some v.
Proof.
  intros Hs Hn Hk Hv.
  set (d := Doc [] [(sec, [Blank [LF]; Key k [] (Quoted [] (map Esc v) []) LF])]).
  assert (Hok : doc_ok lists d).
  { split; [constructor|]. constructor; [|constructor]. split; [exact Hs|]. cbn [fst snd].
    split; [contradiction|]. intros _. constructor; [|constructor; [|constructor]].
    - constructor; [simpl; auto|constructor].
    - split; [exact Hk|]. split; [|simpl; auto]. split; [constructor|]. split; [|constructor].
      apply Forall_map. apply Forall_forall. intros c Hc. simpl. intros ->. contradiction. }
  destruct (doc_means Hok) as (cfg & E & _ & Hget). exists cfg. split.
  - rewrite <- E. f_equal. unfold d, doc_text, section_text, line_text.
    cbn [d_pre d_secs flat_map fst snd line_text0 line_eol value_text app].
    assert (Ht : toks_bytes (map Esc v) = flat_map (fun c => [BSL; c]) v).
    { clear. induction v as [|c v IH]; [reflexivity|]. simpl. rewrite <- IH. reflexivity. }
    rewrite Ht. rewrite ?app_nil_r. rewrite <- ?app_assoc. cbn [app B list_ascii_of_string].
    rewrite <- ?app_assoc. reflexivity.
  - specialize (Hget sec (name_no_nul Hs)). unfold doc_section, d in Hget. cbn [d_secs last_value] in Hget.
    rewrite beq_refl in Hget. destruct Hget as [_ Hget]. destruct (Hget Hn) as (_ & Hg & _).
    rewrite Hg by apply Hk. cbn. rewrite beq_refl. f_equal.
    unfold toks_chars. rewrite map_map. simpl. apply map_id.
Qed.
