(* blogc_source_parse has a result on any bytes, unless the content has none. *)
From Coq Require Import ZArith.
From Verif Require Import Base Utils UtilsProofs Trie TrieProofs Toctree ToctreeSpec ToctreeProofs Content InlineSpec InlineProofs
  BlockSpec BlockProofs BlockTerm BlockSafe BlockOut BlockLoop DocSpec BlockFwd BlockLine BlockDoc ContentSpec ContentText Source SourceSpec SourceProofs SourceDoc.
#[local] Arguments B : simpl never.

Lemma to_int_range z : (- 2 ^ 31 <= to_int z < 2 ^ 31)%Z.
Proof.
  unfold to_int. pose proof (Z.mod_pos_bound z (2 ^ 32) ltac:(lia)). destruct (Z.ltb_spec (z mod 2 ^ 32) (2 ^ 31)); lia.
Qed.

(* a text that does not begin with a newline byte *)
Definition begun (q : bytes) : Prop := forall c r, q = c :: r -> ~ newline_byte c.
(* a separator has just been read *)
Definition after_separator (p : bytes) : Prop := exists x m, p = x ++ m /\ separator m.
Lemma separator_nl p c : after_separator p -> is_nl c = true -> after_separator (p ++ [c]).
Proof.
  intros (x & m & -> & n & nls & -> & H1 & H2) Hc. exists x, ((repeat "-"%char (S n) ++ nls) ++ [c]). split; [rewrite <- !app_assoc; reflexivity|].
  exists n, (nls ++ [c]). split; [rewrite <- app_assoc; reflexivity|]. split; [destruct nls; discriminate|].
  apply Forall_app. split; [exact H2|]. constructor; [apply is_nl_iff, Hc|constructor].
Qed.
Lemma repeat_snoc {A} (a : A) n : repeat a n ++ [a] = repeat a (S n).
Proof. induction n as [|n IH]; [reflexivity|]. cbn [repeat app] in *. rewrite IH. reflexivity. Qed.

Section Total.
Variables (fuel : nat) (src : bytes) (md : Z).
Hypothesis Hmd : (- 2 ^ 31 <= md < 2 ^ 31)%Z.
Hypothesis Hlen : (Z.of_nat (length src) < 2 ^ 63)%Z.

(* the content that starts after p *)
Definition content_fails {A} (r : res A) : Prop :=
  exists p q o, src = p ++ q /\ after_separator p /\ begun q /\
    match content_parse fuel o (cstr q) None, r with UB, UB => True | OutOfFuel, OutOfFuel => True | _, _ => False end.
Definition err_ok (e : serror) : Prop := forall n, se_at e = Some n -> n <= length src.
Definition sinv (pre : bytes) (s : sst) : Prop :=
  match s_state s with
  | SValueStart | SValue => s_key s <> None
  | SSep => exists x n, pre = x ++ repeat "-"%char (S n)
  | SContentStart => after_separator pre
  | SContent => exists p q, src = p ++ q /\ after_separator p /\ begun q /\ s_start s = length p
  | _ => True
  end.

Lemma content_total cur s p q : cur <= length src -> src = p ++ q -> after_separator p -> begun q -> s_start s = length p -> s_state s = SContent ->
  match source_content fuel src md cur s with
  | Ok (Good s') => s_state s' = SContent
  | Ok (Bad e) => err_ok e
  | r => content_fails r
  end.
Proof.
  intros Hcur Es Hp Hq Hs Hst. unfold source_content. cbv zeta.
  assert (T : strndup (skipn (s_start s) src) (length src - s_start s) = cstr q).
  { unfold strndup. rewrite Hs, Es, skipn_app, skipn_all, Nat.sub_diag, app_length. cbn [skipn app].
    replace (length p + length q - length p) with (length q) by lia. rewrite firstn_all. reflexivity. }
  rewrite T. set (o := BO true true true _).
  destruct (content_parse fuel o (cstr q) None) as [b| |] eqn:Eb; cbn [rbind].
  2,3: exists p, q, o; rewrite Eb; auto.
  pose proof (content_line Eb) as (_ & Hlev).
  destruct (b_hdrs b) as [|h hs] eqn:Eh; [exact Hst|].
  set (rv := opt_insert _ (B "DESCRIPTION") _).
  assert (K : forall d, (- 2 ^ 31 <= d < 2 ^ 31)%Z -> exists t, toctree_render (h :: hs) d (Some (b_le b)) = Ok t).
  { intros d Hd. destruct (@render_table (h :: hs) d (b_le b) Hd) as (t & Et & _); [|eauto].
    intros h' Hh. rewrite Forall_forall in Hlev. apply Hlev in Hh.
    assert (length (cstr q) <= length src).
    { rewrite Es, app_length. assert (X : forall z : bytes, length (cstr z) <= length z); [|pose proof (X q); lia].
      induction z as [|a z IH]; cbn [cstr length]; [lia|]. destruct (a == NUL); cbn [length]; lia. }
    lia. }
  destruct (trie_lookup rv (B "TOCTREE_MAXDEPTH")) as [m|].
  - destruct (strtol m) as [z r]. destruct m as [|c m], r as [|c' r];
      try (destruct (K (to_int z) (to_int_range z)) as (t & ->); cbn [rbind]; exact Hst).
    intros n En. cbn in En. injection En as <-. exact Hcur.
  - destruct (K md Hmd) as (t & ->). cbn [rbind]. exact Hst.
Qed.

Lemma loop_total : forall rest pre s, src = pre ++ rest -> sinv pre s ->
  match source_loop fuel src md rest (length pre) s with
  | Ok (Good s') => sinv src s'
  | Ok (Bad e) => err_ok e
  | r => content_fails r
  end.
Proof.
  induction rest as [|c rest IH]; intros pre s Es HI.
  - rewrite app_nil_r in Es. rewrite <- Es in HI. exact HI.
  - assert (Lc : length pre <= length src) by (rewrite Es, app_length; lia).
    assert (GO : forall s', sinv (pre ++ [c]) s' ->
      match source_loop fuel src md rest (length pre + 1) s' with
      | Ok (Good s') => sinv src s' | Ok (Bad e) => err_ok e | r => content_fails r end).
    { intros s' H'. pose proof (IH (pre ++ [c]) s') as X. rewrite app_length in X. cbn [length] in X. apply X; [rewrite Es, <- app_assoc; reflexivity|exact H']. }
    assert (ERR : forall m, err_ok (SErr m (Some (length pre)))) by (intros m n En; cbn in En; injection En as <-; exact Lc).
    assert (ERR0 : forall m, err_ok (SErr m None)) by (intros m n En; discriminate En).
    rewrite loop_cons. destruct s as [st a k t]. unfold sinv in HI. cbn [s_state s_key s_start] in HI. cbn [source_step].
    destruct st.
    + destruct (_ || _); [cbn [rbind]; apply GO; exact I|]. destruct (is_upper c); [cbn [rbind]; apply GO; exact I|].
      destruct (c == "-"%char) eqn:Ed; cbn [rbind]; [apply GO|apply ERR]. apply eqb_true in Ed. exists pre, 0. rewrite Ed. reflexivity.
    + destruct (_ || _); [cbn [rbind]; apply GO; exact I|]. destruct (c == ":"%char); [|apply ERR].
      destruct (existsb _ _); cbn [rbind]; [apply ERR0|apply GO]. unfold sinv. cbn [s_state s_key]. discriminate.
    + destruct (negb _); [cbn [rbind]; apply GO; exact HI|]. destruct k; [|contradiction]. cbn [rbind]. apply GO. exact I.
    + destruct (is_nl c); [|cbn [rbind]; apply GO; exact HI]. destruct k; [|contradiction]. cbn [rbind]. apply GO. exact I.
    + destruct HI as (x & n & Ep). destruct (c == "-"%char) eqn:Ed.
      { cbn [rbind]. apply GO. apply eqb_true in Ed. exists x, (S n). rewrite Ep, Ed, <- app_assoc, repeat_snoc. reflexivity. }
      destruct (is_nl c) eqn:En; cbn [rbind]; [|apply ERR]. apply GO. unfold sinv. cbn [s_state].
      exists x, (repeat "-"%char (S n) ++ [c]). split; [rewrite Ep, <- app_assoc; reflexivity|].
      exists n, [c]. split; [reflexivity|]. split; [discriminate|]. constructor; [apply is_nl_iff, En|constructor].
    + destruct (is_nl c) eqn:En; cbn [rbind]; apply GO.
      * unfold sinv. cbn [s_state]. apply separator_nl; assumption.
      * unfold sinv. cbn [s_state s_start]. exists pre, (c :: rest). repeat (split; auto). intros d r E K. injection E as <- _. apply is_nl_iff in K. congruence.
    + destruct (Nat.eqb (length pre) (length src - 1)) eqn:El; [|cbn [rbind]; apply GO; exact HI].
      destruct HI as (p & q & H1 & H2 & H4 & H3).
      pose proof (@content_total (length pre) (Sst SContent a k t) p q Lc H1 H2 H4 H3 eq_refl) as X.
      apply Nat.eqb_eq in El. assert (rest = []) as ->.
      { pose proof (f_equal (@length _) Es) as L1. rewrite app_length in L1. cbn [length] in L1. destruct rest; [reflexivity|cbn [length] in L1; lia]. }
      destruct (source_content fuel src md (length pre) (Sst SContent a k t)) as [[s'|e]| |] eqn:Ec; cbn [rbind source_loop]; auto.
      unfold sinv. rewrite X. 
      assert (s_start s' = a) as ->.
      { clear -Ec. unfold source_content in Ec. cbv zeta in Ec. destruct (content_parse _ _ _ _) as [b| |]; cbn [rbind] in Ec; try discriminate.
        destruct (b_hdrs b); [injection Ec as <-; reflexivity|].
        destruct (match trie_lookup _ (B "TOCTREE_MAXDEPTH") with Some _ => _ | None => _ end); [|discriminate].
        destruct (toctree_render _ _ _); cbn [rbind] in Ec; try discriminate. injection Ec as <-. reflexivity. }
      exists p, q. auto.
Qed.

Lemma source_total :
  match source_parse fuel src md with
  | Ok (Good t) => True
  | Ok (Bad e) => err_ok e
  | r => content_fails r
  end.
Proof.
  unfold source_parse. pose proof (@loop_total src [] sst0 eq_refl I) as X. cbn [length] in X.
  destruct (source_loop fuel src md src 0 sst0) as [[s|e]| |]; cbn [rbind]; auto.
  unfold source_finish. destruct (Nat.eqb (trie_size (s_rv s)) 0); [|exact I].
  unfold sinv in X. destruct (s_state s), (s_key s); cbn [rbind]; auto; try contradiction; intros n En; cbn in En; injection En as <-; lia.
Qed.
End Total.

Lemma separator_break p : after_separator p -> line_break p.
Proof.
  intros (x & m & -> & n & nls & -> & H1 & H2). right. destruct (exists_last H1) as (l & c & ->). apply Forall_app in H2. destruct H2 as [_ H2].
  inversion H2; subst. exists (x ++ repeat "-"%char (S n) ++ l), c. split; [rewrite <- !app_assoc; reflexivity|assumption].
Qed.
Lemma suffix_safe p q : no_nul (p ++ q) -> one_newline_byte (p ++ q) -> no_trailing_backslash (p ++ q) -> no_list_lines (p ++ q) -> line_break p ->
  no_nul q /\ one_newline_byte q /\ no_trailing_backslash q /\ no_list_lines q.
Proof.
  intros H1 H2 H3 H4 Hp. split; [|split; [|split]].
  - intro H. apply H1, in_or_app. auto.
  - destruct H2 as [H2|H2]; [left|right]; intro H; apply H2, in_or_app; auto.
  - intros x y E. apply (H3 (p ++ x) y). rewrite E, app_assoc. reflexivity.
  - intros x y E Hx. apply (H4 (p ++ x) y); [rewrite E, app_assoc; reflexivity|].
    destruct Hx as [->|(x' & c & -> & Hc)]; [rewrite app_nil_r; exact Hp|]. right. exists (p ++ x'), c. rewrite app_assoc. auto.
Qed.
