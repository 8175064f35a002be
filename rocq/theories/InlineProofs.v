(* The inline parser: it ends, it stays inside its input, and what it emits is in
   the grammar of InlineSpec.v. *)
From Verif Require Import Base Utils UtilsProofs Toctree Content InlineSpec.
#[local] Arguments B : simpl never.

(* ---------- entities ---------- *)
Lemma esc1_text c : text_byte c (esc1 c).
Proof.
  unfold esc1, entity.
  destruct (c == "&"%char) eqn:E1; [apply eqb_true in E1; subst; constructor|].
  destruct (c == "<"%char) eqn:E2; [apply eqb_true in E2; subst; constructor|].
  destruct (c == ">"%char) eqn:E3; [apply eqb_true in E3; subst; constructor|].
  destruct (c == DQ) eqn:E4; [apply eqb_true in E4; subst; constructor|].
  destruct (c == SQ) eqn:E5; [apply eqb_true in E5; subst; constructor|].
  destruct (c == "/"%char) eqn:E6; [apply eqb_true in E6; subst; constructor|].
  apply eqb_false in E1, E2, E3, E4, E5, E6.
  constructor; [|assumption].
  unfold SQ in *. cbv [B list_ascii_of_string In]. intuition congruence.
Qed.

Lemma text_byte_esc1 c e : text_byte c e -> e = esc1 c.
Proof.
  intro H. inv H; try reflexivity.
  unfold esc1, entity. cbv [B list_ascii_of_string In] in H0.
  repeat match goal with
  | |- context [ c == ?d ] =>
      let E := fresh in destruct (c == d) eqn:E;
      [apply eqb_true in E; subst; exfalso; solve [intuition congruence | unfold SQ in *; intuition congruence]|]
  end. reflexivity.
Qed.

Lemma htmlentities_text s : text_bytes s (htmlentities s).
Proof.
  induction s as [|c s IH]; [constructor|]. cbn [htmlentities flat_map].
  constructor; [apply esc1_text|exact IH].
Qed.
Lemma text_bytes_htmlentities s t : text_bytes s t -> t = htmlentities s.
Proof.
  induction 1; [reflexivity|]. cbn [htmlentities flat_map]. apply text_byte_esc1 in H. subst. reflexivity.
Qed.

(* ---------- the parity of the trailing backslashes ---------- *)
Lemma odd_tail_snoc s c : odd_tail (s ++ [c]) = if c == BSL then negb (odd_tail s) else false.
Proof. unfold odd_tail. rewrite fold_left_app. reflexivity. Qed.
Lemma odd_tail_mid x c y : c <> BSL -> odd_tail (x ++ c :: y) = odd_tail y.
Proof.
  intro H. unfold odd_tail. rewrite fold_left_app. cbn [fold_left].
  unfold odd_step at 2. apply eqb_false in H. rewrite H. reflexivity.
Qed.

Lemma find_ub c : c <> NUL -> c <> BSL -> forall n s i, length s <= n -> no_nul s ->
  str_find_go (s ++ [NUL]) i c = UB -> odd_tail s = true.
Proof.
  intros Hc Hb. induction n as [|n IH]; intros s i Hn Hnn H.
  - destruct s; [|cbn in Hn; lia]. cbn in H. discriminate.
  - destruct s as [|x s]; [cbn in H; discriminate|]. cbn [app str_find_go] in H.
    apply no_nul_cons in Hnn. destruct Hnn as [Hx Hnn].
    apply eqb_false in Hx. rewrite Hx in H.
    destruct (x == BSL) eqn:E.
    + apply eqb_true in E. subst x. destruct s as [|y s].
      * cbn. reflexivity.
      * cbn [app] in H. apply no_nul_cons in Hnn. destruct Hnn as [Hy Hnn].
        apply IH in H; [|cbn in Hn; lia|assumption].
        change (odd_tail ([BSL] ++ y :: s) = true).
        destruct (y == BSL) eqn:Ey.
        -- apply eqb_true in Ey. subst y. exact H.
        -- apply eqb_false in Ey. rewrite odd_tail_mid by assumption. exact H.
    + destruct (x == c); [discriminate|]. apply IH in H; [|cbn in Hn; lia|assumption].
      apply eqb_false in E. change (odd_tail ([] ++ x :: s) = true). rewrite odd_tail_mid by assumption. exact H.
Qed.
Lemma find_no_fuel c : forall n s i, length s <= n -> str_find_go s i c <> OutOfFuel.
Proof.
  induction n as [|n IH]; intros s i Hn; destruct s as [|x s]; cbn [length] in Hn; try lia;
    cbn [str_find_go]; try discriminate.
  destruct (x == NUL); [discriminate|]. destruct (x == BSL).
  - destruct s; [discriminate|]. apply IH. cbn in Hn. lia.
  - destruct (x == c); [discriminate|]. apply IH. lia.
Qed.
Lemma find_some c : c <> NUL -> forall n s i j, length s <= n ->
  str_find_go (s ++ [NUL]) i c = Ok (Some j) -> i <= j < i + length s /\ nth_error s (j - i) = Some c.
Proof.
  intro Hc. induction n as [|n IH]; intros s i j Hn H; destruct s as [|x s]; cbn [length] in Hn; try lia.
  - cbn in H. discriminate.
  - cbn in H. discriminate.
  - cbn [app str_find_go] in H. destruct (x == NUL) eqn:E0; [discriminate|].
    destruct (x == BSL) eqn:E.
    + destruct s as [|y s]; [cbn in H; discriminate|]. cbn [app] in H.
      apply IH in H; [|cbn in Hn; lia]. cbn [length]. destruct H as [H1 H2]. split; [lia|].
      replace (j - i) with (S (S (j - (i + 2)))) by lia. exact H2.
    + destruct (x == c) eqn:Ec.
      * injection H as <-. cbn [length]. split; [lia|]. rewrite Nat.sub_diag. apply eqb_true in Ec. subst. reflexivity.
      * apply IH in H; [|lia]. cbn [length]. destruct H as [H1 H2]. split; [lia|].
        replace (j - i) with (S (j - (i + 1))) by lia. exact H2.
Qed.

Definition mark (c : ascii) : Prop := c <> NUL /\ c <> BSL.
Lemma str_find_go_eq s c : mark c -> str_find s c = str_find_go (s ++ [NUL]) 0 c.
Proof. intros [H _]. unfold str_find. apply eqb_false in H. rewrite H. reflexivity. Qed.

(* every suffix that starts after a byte other than the backslash ends with an
   even number of backslashes *)
Definition wsafe (s : bytes) : Prop :=
  forall a c b, s = a ++ c :: b -> c <> BSL -> odd_tail b = false.

Lemma wsafe_skipn s n : wsafe s -> wsafe (skipn n s).
Proof.
  intros H a c b E Hc. apply (H (firstn n s ++ a) c b); [|exact Hc].
  rewrite <- app_assoc, <- E. symmetry. apply firstn_skipn.
Qed.
Lemma even_wsafe s : odd_tail s = false -> wsafe s.
Proof. intros H a c b -> Hc. rewrite odd_tail_mid in H; assumption. Qed.

Lemma no_nul_skipn s n : no_nul s -> no_nul (skipn n s).
Proof. intros H K. apply H. rewrite <- (firstn_skipn n s). apply in_or_app. right. exact K. Qed.
Lemma no_nul_firstn s n : no_nul s -> no_nul (firstn n s).
Proof. intros H K. apply H. rewrite <- (firstn_skipn n s). apply in_or_app. left. exact K. Qed.
Lemma no_nul_dup s a b : no_nul s -> no_nul (dup s a b).
Proof. intro H. unfold dup. destruct (Nat.leb a b); [apply no_nul_firstn|]; apply no_nul_skipn, H. Qed.

(* the byte before a position is not a backslash *)
Definition after_mark (s : bytes) (p : nat) : Prop :=
  1 <= p /\ exists c, nth_error s (p - 1) = Some c /\ c <> BSL.
Lemma after_mark_split s p : after_mark s p -> exists a c, s = a ++ c :: skipn p s /\ c <> BSL.
Proof.
  intros (H & c & E & Hc). apply nth_error_split in E. destruct E as (a & b & -> & L).
  exists a, c. split; [|exact Hc]. f_equal. f_equal.
  rewrite skipn_app. replace (p - length a) with 1 by lia.
  rewrite skipn_all2 by lia. reflexivity.
Qed.
Lemma after_mark_even s p : wsafe s -> after_mark s p -> odd_tail (skipn p s) = false.
Proof.
  intros H M. destruct (after_mark_split M) as (a & c & E & Hc). exact (H a c _ E Hc).
Qed.

Lemma find_res s p d : mark d ->
  match str_find (skipn p s) d with
  | Ok None => True
  | Ok (Some i) => p + i < length s /\ nth_error s (p + i) = Some d
  | UB => no_nul s -> after_mark s p -> ~ wsafe s
  | OutOfFuel => False
  end.
Proof.
  intro Hd. rewrite (str_find_go_eq _ Hd).
  destruct (str_find_go (skipn p s ++ [NUL]) 0 d) as [[i|]| |] eqn:E; auto.
  - destruct Hd as [Hd _]. apply (@find_some d Hd _ _ _ _ (le_n _)) in E. destruct E as [E1 E2].
    rewrite Nat.sub_0_r in E2. rewrite skipn_length in E1. split; [lia|].
    rewrite <- (firstn_skipn p s) at 1. rewrite nth_error_app2; rewrite firstn_length; [|lia].
    replace (p + i - Nat.min p (length s)) with i by lia. exact E2.
  - intros Hn Ha Hw. destruct Hd as [Hd1 Hd2].
    apply (@find_ub d Hd1 Hd2 _ _ _ (le_n _)) in E; [|apply no_nul_skipn, Hn].
    rewrite (after_mark_even Hw Ha) in E. discriminate.
  - exact (@find_no_fuel d _ _ 0 (le_n _) E).
Qed.

Lemma crd_spec s i : i <= length s ->
  exists c, crd s i = Ok c /\ (i < length s -> nth_error s i = Some c) /\ (c <> NUL -> i < length s).
Proof.
  intro H. unfold crd, rd. destruct (Nat.lt_ge_cases i (length s)) as [L|L].
  - rewrite nth_error_app1 by exact L. destruct (nth_error s i) eqn:E.
    + exists a. repeat split; auto.
    + apply nth_error_None in E. lia.
  - rewrite nth_error_app2 by lia. replace (i - length s) with 0 by lia. cbn.
    exists NUL. repeat split; [lia|congruence].
Qed.
Lemma crd_at s i c : nth_error s i = Some c -> crd s i = Ok c.
Proof.
  intro H. unfold crd, rd. assert (i < length s) by (apply nth_error_Some; congruence).
  rewrite nth_error_app1 by assumption. rewrite H. reflexivity.
Qed.

Lemma find_pair_res s len d : mark d -> len <= length s ->
  forall fuel pos, len < fuel + pos -> pos <= len -> 1 <= fuel ->
  match find_pair fuel s len pos d with
  | Ok None => True
  | Ok (Some q) => pos <= q < len /\ nth_error s q = Some d /\ nth_error s (q + 1) = Some d
  | UB => no_nul s -> after_mark s pos -> ~ wsafe s
  | OutOfFuel => False
  end.
Proof.
  intros Hd Hlen. induction fuel as [|f IH]; intros pos Hf Hp H1; [lia|].
  cbn [find_pair]. pose proof (@find_res s pos d Hd) as FR.
  destruct (str_find (skipn pos s) d) as [[i|]| |]; cbn [rbind]; auto.
  destruct FR as [F1 F2].
  assert (Hrec : match (if Nat.ltb (pos + i + 1) len then find_pair f s len (pos + i + 1) d else Ok None) with
    | Ok None => True
    | Ok (Some q) => pos <= q < len /\ nth_error s q = Some d /\ nth_error s (q + 1) = Some d
    | UB => no_nul s -> after_mark s pos -> ~ wsafe s
    | OutOfFuel => False
    end).
  { destruct (Nat.ltb_spec (pos + i + 1) len) as [L|L]; [|exact I].
    specialize (IH (pos + i + 1) ltac:(lia) ltac:(lia) ltac:(lia)).
    destruct (find_pair f s len (pos + i + 1) d) as [[q|]| |]; auto.
    - destruct IH as [I1 I2]. split; [lia|exact I2].
    - intros Hn _. apply IH; [exact Hn|]. split; [lia|]. exists d.
      replace (pos + i + 1 - 1) with (pos + i) by lia. split; [exact F2|apply Hd]. }
  destruct (Nat.ltb_spec (pos + i) len) as [L|L].
  - destruct (@crd_spec s (pos + i + 1) ltac:(lia)) as (x & Ex & X1 & X2). rewrite Ex. cbn [rbind].
    destruct (x == d) eqn:E; [|exact Hrec].
    apply eqb_true in E. subst x. destruct Hd as [Hd1 Hd2]. specialize (X2 Hd1).
    repeat split; [lia|lia|exact F2|exact (X1 X2)].
  - cbn [rbind]. exact Hrec.
Qed.

(* ---------- the invariant ---------- *)
Definition iinv (raw : Prop) (s : bytes) (len cur : nat) (v : ivars) : Prop :=
  html raw (i_rv v) /\
  match i_state v with
  | IStart => True
  | IAst | IAst2 | IUnd | IUnd2 | ITick | ITick2 => cur <= len /\ after_mark s cur
  | ILinkStart | ILinkAuto => cur <= len /\ after_mark s cur /\ raw
  | ILinkContent => i_slink v < cur /\ 1 <= i_count v /\ after_mark s (i_slink v) /\ raw
                    /\ i_slink v < len
                    /\ (cur <= len -> odd_tail (sub s (i_slink v + 1) cur) = false)
  | ILinkUrlStart | ILinkUrl =>
      i_slink v < cur /\ after_mark s (i_slink v) /\ raw /\ i_slink v < len
      /\ exists l, i_link1 v = Some l /\ no_nul l /\ wsafe l /\ length l < length s
  | IImgStart => 1 <= cur < len
  | IImgAlt | IImgUrlStart | IImgUrl => 1 <= i_slink v <= cur /\ i_slink v <= len /\ raw
  | IEndash | IEmdash | IBreakStart | IBreak => True
  end.

Definition rank (n cur : nat) (v : ivars) : nat :=
  match i_state v with
  | IStart => (n - cur) * (n + 10)
  | ILinkContent | ILinkUrlStart | ILinkUrl | IImgAlt | IImgUrlStart | IImgUrl =>
      (n - i_slink v) * (n + 10) + (n + 2 - cur)
  | ILinkStart => (n - cur) * (n + 10) + n + 5
  | _ => (n - cur) * (n + 10) + 1
  end.

Definition iout (raw safe : Prop) (r : res bytes) : Prop :=
  match r with Ok t => html raw t | UB => ~ safe | OutOfFuel => False end.

Definition rec_ok (raw : Prop) (s : bytes) (rec : bytes -> nat -> res bytes) : Prop :=
  forall s' len', no_nul s' -> length s' < length s -> len' <= length s' ->
    (In "["%char s' -> raw) -> (wsafe s -> wsafe s') -> iout raw (wsafe s) (rec s' len').

Definition istep_out (raw : Prop) (s : bytes) (len cur : nat) (v : ivars) (r : res (nat * ivars)) : Prop :=
  match r with
  | Ok (cur', v') => iinv raw s len cur' v' /\ rank (length s) cur' v' < rank (length s) cur v
  | UB => ~ wsafe s
  | OutOfFuel => False
  end.

Lemma in_skipn (c : ascii) n s : In c (skipn n s) -> In c s.
Proof. intro H. rewrite <- (firstn_skipn n s). apply in_or_app. right. exact H. Qed.

Lemma rank_less n a b k : a < b <= n -> k < n + 10 -> (n - b) * (n + 10) + k < (n - a) * (n + 10).
Proof. intros H K. assert (n - a = S (n - b + (b - a - 1))) by lia. rewrite H0. nia. Qed.
Lemma rank_le n a b : a <= b -> (n - b) * (n + 10) <= (n - a) * (n + 10).
Proof. intro H. apply Nat.mul_le_mono_r. lia. Qed.
Lemma rank_less1 n a b : a < b -> a < n -> (n - b) * (n + 10) < (n - a) * (n + 10).
Proof. intros H K. apply Nat.mul_lt_mono_pos_r; lia. Qed.

Lemma after_next s p c : nth_error s p = Some c -> c <> BSL -> after_mark s (p + 1).
Proof. intros H K. split; [lia|]. exists c. replace (p + 1 - 1) with p by lia. auto. Qed.

Lemma html_c raw c : entity c = None -> html raw [c].
Proof. intro H. pose proof (esc1_text c) as T. unfold esc1 in T. rewrite H in T. exact (H_text raw T). Qed.

Ltac hsimp := cbn [i_state i_rv i_start i_count i_slink i_link1 goto emit fst snd] in *.
Ltac hm := repeat first [ assumption | apply H_app | apply H_nil | apply H_br | apply H_ndash | apply H_mdash
                        | (eapply H_text; apply esc1_text) | (apply html_c; reflexivity) ].

Lemma html_repeat raw n : html raw (repeat SP n).
Proof.
  induction n; [apply H_nil|]. cbn [repeat]. change (html raw ([SP] ++ repeat SP n)).
  apply H_app; [apply html_c; reflexivity|exact IHn].
Qed.
Lemma html_two raw d : entity d = None -> html raw [d; d].
Proof. intro H. change (html raw ([d] ++ [d])). apply H_app; apply html_c; exact H. Qed.

Lemma rec_suffix (raw : Prop) s rec cur i : rec_ok raw s rec -> no_nul s -> (In "["%char s -> raw) ->
  1 <= cur -> cur < length s -> i <= length s - cur -> iout raw (wsafe s) (rec (skipn cur s) i).
Proof.
  intros R Hn Hr H1 H2 Hi. apply R.
  - apply no_nul_skipn, Hn.
  - rewrite skipn_length. lia.
  - rewrite skipn_length. exact Hi.
  - intro K. apply Hr. exact (in_skipn K).
  - apply wsafe_skipn.
Qed.

Lemma emph1_ok (raw : Prop) s len cur c v rec d double :
  mark d -> entity d = None -> double = IAst2 \/ double = IUnd2 ->
  no_nul s -> len <= length s -> cur < len -> nth_error s cur = Some c -> (In "["%char s -> raw) ->
  rec_ok raw s rec -> html raw (i_rv v) -> after_mark s cur ->
  (rank (length s) cur v = (length s - cur) * (length s + 10) + 1) ->
  istep_out raw s len cur v (emph1 rec s len cur d double c v).
Proof.
  intros Hd He Hdb Hn Hlen Hcur Hc Hraw R Hrv Ha Hrk. unfold emph1, istep_out. rewrite Hrk.
  destruct (c == d) eqn:E.
  - apply eqb_true in E. subst d. split.
    + split; [exact Hrv|]. pose proof (after_next Hc (proj2 Hd)).
      destruct Hdb; subst double; hsimp; (split; [lia|assumption]).
    + assert (rank (length s) (cur + 1) (goto double v) = (length s - (cur + 1)) * (length s + 10) + 1)
        by (destruct Hdb; subst double; reflexivity).
      rewrite H. assert (L := @rank_less (length s) cur (cur + 1) 0). lia.
  - pose proof (@find_res s cur d Hd) as FR.
    destruct (str_find (skipn cur s) d) as [[i|]| |]; cbn [rbind].
    + destruct FR as [F1 F2]. destruct (Nat.leb_spec len (cur + i)) as [L|L].
      * split; [split; [hsimp; hm|exact I]|].
        { apply html_c. exact He. }
        unfold rank. hsimp. lia.
      * pose proof (@rec_suffix raw s rec cur i R Hn Hraw (proj1 Ha) ltac:(lia) ltac:(lia)) as HR.
        destruct (rec (skipn cur s) i) as [t| |]; cbn [rbind iout] in *; auto.
        split; [split; [hsimp|exact I]|].
        { apply H_app; [exact Hrv|]. apply H_em. exact HR. }
        unfold rank. hsimp. assert (K := @rank_less1 (length s) cur (cur + i + 1)). lia.
    + split; [split; [hsimp|exact I]|].
      { apply H_app; [exact Hrv|apply html_c; exact He]. }
      unfold rank. hsimp. lia.
    + apply FR; assumption.
    + exact FR.
Qed.

Lemma emph2_ok (raw : Prop) s len cur v rec d :
  mark d -> entity d = None ->
  no_nul s -> len <= length s -> cur < len -> (In "["%char s -> raw) ->
  rec_ok raw s rec -> html raw (i_rv v) -> after_mark s cur ->
  (rank (length s) cur v = (length s - cur) * (length s + 10) + 1) ->
  istep_out raw s len cur v (emph2 rec s len cur d v).
Proof.
  intros Hd He Hn Hlen Hcur Hraw R Hrv Ha Hrk. unfold emph2, istep_out. rewrite Hrk.
  pose proof (@find_pair_res s len d Hd Hlen (S len) cur ltac:(lia) ltac:(lia) ltac:(lia)) as FP.
  destruct (find_pair (S len) s len cur d) as [[q|]| |]; cbn [rbind].
  - destruct FP as [F1 _].
    pose proof (@rec_suffix raw s rec cur (q - cur) R Hn Hraw (proj1 Ha) ltac:(lia) ltac:(lia)) as HR.
    destruct (rec (skipn cur s) (q - cur)) as [t| |]; cbn [rbind iout] in *; auto.
    split; [split; [hsimp|exact I]|].
    { apply H_app; [exact Hrv|]. apply H_strong. exact HR. }
    unfold rank. hsimp. assert (K := @rank_less1 (length s) cur (q + 2)). lia.
  - split; [split; [hsimp|exact I]|].
    { apply H_app; [exact Hrv|apply html_two; exact He]. }
    unfold rank. hsimp. lia.
  - apply FP; assumption.
  - exact FP.
Qed.

Lemma sub_snoc s a b c : a <= b -> nth_error s b = Some c -> sub s a (b + 1) = sub s a b ++ [c].
Proof.
  intros H E. unfold sub. replace (b + 1 - a) with (S (b - a)) by lia.
  apply nth_error_split in E. destruct E as (x & y & -> & L).
  rewrite skipn_app. replace (a - length x) with 0 by lia. cbn [skipn].
  assert (length (skipn a x) = b - a) by (rewrite skipn_length; lia).
  rewrite !firstn_app, H0. replace (S (b - a) - (b - a)) with 1 by lia. rewrite Nat.sub_diag.
  rewrite !firstn_all2 with (l := skipn a x) by lia. cbn [firstn]. rewrite app_nil_r. reflexivity.
Qed.

Lemma sub_split s a b m : a <= m <= b -> b <= length s -> sub s a b = sub s a m ++ sub s m b.
Proof.
  intros H L. unfold sub. replace (b - a) with ((m - a) + (b - m)) by lia.
  replace (skipn m s) with (skipn (m - a) (skipn a s)) by (rewrite skipn_add; f_equal; lia).
  generalize (skipn a s). intro l. generalize (m - a). intro k. clear.
  revert k. induction l as [|x l IH]; intros [|k]; cbn [Nat.add firstn skipn app]; try reflexivity.
  - rewrite firstn_nil. reflexivity.
  - f_equal. apply IH.
Qed.

(* the text of a link is safe *)
Lemma link_wsafe s a b : a < b <= length s -> odd_tail (sub s (a + 1) b) = false -> wsafe (sub s a b).
Proof.
  intros H E x c y Eq Hc.
  assert (L : length (sub s a b) = b - a) by (apply sub_length; lia).
  assert (Eq2 : sub s a b = sub s a (a + 1) ++ sub s (a + 1) b) by (apply sub_split; lia).
  assert (L1 : length (sub s a (a + 1)) = 1) by (rewrite sub_length; lia).
  destruct (sub s a (a + 1)) as [|z [|]] eqn:Ez; try discriminate.
  rewrite Eq2 in Eq. cbn [app] in Eq. destruct x as [|x0 x].
  - cbn [app] in Eq. injection Eq as _ <-. exact E.
  - cbn [app] in Eq. injection Eq as _ Eq. rewrite Eq in E. rewrite odd_tail_mid in E; assumption.
Qed.

Lemma dup_sub s a b : a <= b -> dup s a b = sub s a b.
Proof. intro H. unfold dup. apply Nat.leb_le in H. rewrite H. reflexivity. Qed.

Lemma mark_ast : mark "*". Proof. split; discriminate. Qed.
Lemma mark_und : mark "_". Proof. split; discriminate. Qed.
Lemma mark_tick : mark "`". Proof. split; discriminate. Qed.
Lemma mark_brk : mark "]". Proof. split; discriminate. Qed.

Ltac out := unfold istep_out; split; [split; [hsimp|hsimp]|unfold rank; hsimp].
Ltac rk0 n cur := let K := fresh in assert (K := @rank_less1 n cur (cur + 1)); lia.

Lemma istep_ok (raw : Prop) rec s len cur c v :
  no_nul s -> len <= length s -> cur < len -> nth_error s cur = Some c -> (In "["%char s -> raw) ->
  rec_ok raw s rec -> iinv raw s len cur v ->
  istep_out raw s len cur v (istep rec s len cur c v).
Proof.
  intros Hn Hlen Hcur Hc Hraw R [Hrv Hst].
  assert (K1 := @rank_less1 (length s) cur (cur + 1) ltac:(lia) ltac:(lia)).
  assert (K2 := @rank_less1 (length s) cur (cur + 2) ltac:(lia) ltac:(lia)).
  assert (Hlast : Nat.eqb cur (len - 1) = false -> cur + 1 < len)
    by (intro E; apply Nat.eqb_neq in E; lia).
  unfold istep. destruct v as [st rv start count slink link1]. destruct st; hsimp.
  - (* start *)
    destruct (Nat.eqb cur (len - 1)) eqn:El.
    { out; [hm|exact I|lia]. }
    specialize (Hlast eq_refl).
    assert (Kn := @rank_less (length s) cur (cur + 1) 1 ltac:(lia) ltac:(lia)).
    destruct (c == BSL) eqn:Eb.
    { destruct (@crd_spec s (cur + 1) ltac:(lia)) as (x & -> & _). cbn [rbind]. out; [hm|exact I|lia]. }
    apply eqb_false in Eb. pose proof (after_next Hc Eb) as Ha.
    repeat match goal with
    | |- context [ if (c == ?d) then _ else _ ] => destruct (c == d) eqn:?
    end; try (out; try exact Hrv; try exact I; try lia; try (split; [lia|exact Ha])).
    + split; [lia|]. split; [exact Ha|]. apply Hraw.
      match goal with H : (c == "["%char) = true |- _ => apply eqb_true in H; subst c end.
      apply nth_error_In in Hc. exact Hc.
    + hm.
  - apply emph1_ok; auto using mark_ast; apply Hst.
  - apply emph2_ok; auto using mark_ast; apply Hst.
  - apply emph1_ok; auto using mark_und; apply Hst.
  - apply emph2_ok; auto using mark_und; apply Hst.
  - (* backtick *)
    destruct (c == "`"%char) eqn:E.
    + apply eqb_true in E. subst c. out; [exact Hrv| |].
      * split; [lia|]. apply (after_next Hc). discriminate.
      * lia.
    + pose proof (@find_res s cur "`" mark_tick) as FR.
      destruct (str_find (skipn cur s) "`") as [[i|]| |]; cbn [rbind].
      * destruct FR as [F1 F2]. destruct (Nat.leb_spec len (cur + i)) as [L|L].
        { out; [|exact I|lia]. apply H_app; [exact Hrv|apply html_c; reflexivity]. }
        { out; [|exact I|]. 
          - apply H_app; [exact Hrv|]. eapply H_code. apply htmlentities_text.
          - assert (K := @rank_less1 (length s) cur (cur + i + 1)). lia. }
      * out; [|exact I|lia]. apply H_app; [exact Hrv|apply html_c; reflexivity].
      * apply FR; [assumption|apply Hst].
      * exact FR.
  - (* two backticks *)
    pose proof (@find_pair_res s len "`" mark_tick Hlen (S len) cur ltac:(lia) ltac:(lia) ltac:(lia)) as FP.
    destruct (find_pair (S len) s len cur "`") as [[q|]| |]; cbn [rbind].
    + destruct FP as [F1 _]. out; [|exact I|].
      * apply H_app; [exact Hrv|]. eapply H_code. apply htmlentities_text.
      * assert (K := @rank_less1 (length s) cur (q + 2)). lia.
    + out; [|exact I|lia]. apply H_app; [exact Hrv|apply html_two; reflexivity].
    + apply FP; [assumption|apply Hst].
    + exact FP.
  - (* link start *)
    destruct Hst as (Hcl & Ha & Hr). destruct (c == "["%char) eqn:E.
    + apply eqb_true in E. subst c. out; [exact Hrv| |lia].
      split; [lia|]. split; [apply (after_next Hc); discriminate|exact Hr].
    + out; [exact Hrv| |lia]. repeat split; try lia; try exact Hr; try apply Ha.
      intros _. unfold sub. replace (cur + 1 - (cur + 1)) with 0 by lia. reflexivity.
  - (* automatic link *)
    destruct Hst as (Hcl & Ha & Hr).
    pose proof (@find_pair_res s len "]" mark_brk Hlen (S len) cur ltac:(lia) ltac:(lia) ltac:(lia)) as FP.
    destruct (find_pair (S len) s len cur "]") as [[q|]| |]; cbn [rbind].
    + destruct FP as [F1 _]. out; [|exact I|].
      * apply H_app; [exact Hrv|]. apply H_auto. exact Hr.
      * assert (K := @rank_less1 (length s) cur (q + 2)). lia.
    + out; [|exact I|lia]. apply H_app; [exact Hrv|apply html_two; reflexivity].
    + apply FP; [assumption|apply Ha].
    + exact FP.
  - (* link text *)
    destruct Hst as (S1 & S2 & S3 & S4 & S5 & S6).
    assert (Esub : sub s (slink + 1) (cur + 1) = sub s (slink + 1) cur ++ [c]) by (apply sub_snoc; [lia|exact Hc]).
    assert (Eeven : odd_tail (sub s (slink + 1) cur) = false) by (apply S6; lia).
    destruct (c == BSL) eqn:Eb.
    + out; [exact Hrv| |lia]. apply eqb_true in Eb. subst c.
      repeat split; try lia; try exact S4; try apply S3.
      intro L. destruct (nth_error s (cur + 1)) as [x|] eqn:Ex; [|apply nth_error_None in Ex; lia].
      replace (cur + 2) with (cur + 1 + 1) by lia.
      rewrite (@sub_snoc s (slink + 1) (cur + 1) x ltac:(lia) Ex), Esub.
      rewrite !odd_tail_snoc, Eeven, eqb_refl. destruct (x == BSL); reflexivity.
    + assert (Eeven' : odd_tail (sub s (slink + 1) (cur + 1)) = false)
        by (rewrite Esub, odd_tail_snoc, Eb; reflexivity).
      destruct (c == "["%char); [out; [exact Hrv| |lia]; repeat split; auto; try lia; apply S3|].
      destruct (c == "]"%char); [|out; [exact Hrv| |lia]; repeat split; auto; try lia; apply S3].
      destruct (Nat.eqb_spec count 1) as [E1|E1].
      * out; [exact Hrv| |lia]. split; [lia|]. split; [exact S3|]. split; [exact S4|]. split; [lia|].
        exists (dup s slink cur). split; [reflexivity|]. split; [apply no_nul_dup, Hn|].
        rewrite dup_sub by lia. split; [apply link_wsafe; [lia|exact Eeven]|].
        rewrite sub_length by lia. destruct S3 as [S3 _]. lia.
      * out; [exact Hrv| |lia]. repeat split; auto; try lia; apply S3.
  - (* before the URL *)
    destruct Hst as (S1 & S2 & S3 & S4 & l & L1 & L2 & L3 & L4).
    destruct (is_sp c || is_nl c).
    { out; [exact Hrv| |lia]. repeat split; auto; try lia; try apply S2. exists l. auto. }
    destruct (c == "("%char).
    { out; [exact Hrv| |lia]. repeat split; auto; try lia; try apply S2. exists l. auto. }
    { out; [|exact I|lia]. apply H_app; [exact Hrv|apply html_c; reflexivity]. }
  - (* the URL *)
    destruct Hst as (S1 & S2 & S3 & S4 & l & L1 & L2 & L3 & L4).
    assert (Kl := @rank_le (length s) slink (cur + 1) ltac:(lia)).
    destruct (c == BSL).
    { out; [exact Hrv| |lia]. repeat split; auto; try lia; try apply S2. exists l. auto. }
    destruct (c == ")"%char).
    { rewrite L1. assert (HR : iout raw (wsafe s) (rec l (length l))) by (apply R; auto).
      destruct (rec l (length l)) as [t| |]; cbn [rbind iout] in *; auto.
      out; [|exact I|lia]. apply H_app; [exact Hrv|]. apply H_link; assumption. }
    { out; [exact Hrv| |lia]. repeat split; auto; try lia; try apply S2. exists l. auto. }
  - (* image *)
    destruct (c == "["%char) eqn:E.
    + out; [exact Hrv| |].
      * repeat split; try lia. apply Hraw. apply eqb_true in E. subst c. exact (nth_error_In _ _ Hc).
      * assert (K := @rank_less (length s) cur (cur + 1) 5 ltac:(lia) ltac:(lia)).
        assert (K' := @rank_le (length s) (cur + 1) (cur + 1)).
        assert (K'' := @rank_less (length s) cur (cur + 1) (length s + 2 - (cur + 1)) ltac:(lia) ltac:(lia)).
        lia.
    + out; [|exact I|lia]. apply H_app; [exact Hrv|apply html_c; reflexivity].
  - destruct Hst as (S1 & S2 & S3). destruct (c == BSL).
    { out; [exact Hrv| |lia]. repeat split; auto; lia. }
    destruct (c == "]"%char); (out; [exact Hrv| |lia]; repeat split; auto; lia).
  - destruct Hst as (S1 & S2 & S3). destruct (is_sp c || is_nl c).
    { out; [exact Hrv| |lia]. repeat split; auto; lia. }
    destruct (c == "("%char); [out; [exact Hrv| |lia]; repeat split; auto; lia|].
    out; [|exact I|lia]. apply H_app; [exact Hrv|].
    change (html raw ([("!"%char : ascii)] ++ ["["%char])). apply H_app; apply html_c; reflexivity.
  - destruct Hst as (S1 & S2 & S3).
    assert (Kl := @rank_le (length s) slink (cur + 1) ltac:(lia)).
    destruct (c == BSL).
    { out; [exact Hrv| |lia]. repeat split; auto; lia. }
    destruct (c == ")"%char); [|out; [exact Hrv| |lia]; repeat split; auto; lia].
    out; [|exact I|lia]. apply H_app; [exact Hrv|]. apply H_img. exact S3.
  - (* dashes *)
    assert (Kn := @rank_less (length s) cur (cur + 1) 1 ltac:(lia) ltac:(lia)).
    destruct (c == "-"%char).
    + destruct (Nat.eqb cur (len - 1)); (out; [hm|exact I|lia]).
    + out; [|exact I|lia]. apply H_app; [exact Hrv|apply html_c; reflexivity].
  - destruct (c == "-"%char); (out; [hm|exact I|lia]).
  - assert (Kn := @rank_less (length s) cur (cur + 1) 1 ltac:(lia) ltac:(lia)).
    destruct (c == SP).
    + destruct (Nat.eqb cur (len - 1)); (out; [hm|exact I|lia]).
    + out; [|exact I|lia]. hm.
  - assert (Kn := @rank_less (length s) cur (cur + 1) 1 ltac:(lia) ltac:(lia)).
    destruct (c == SP).
    + destruct (Nat.eqb cur (len - 1)); (out; [hm|exact I|lia]).
    + destruct (is_nl c) eqn:En.
      * out; [|exact I|lia]. apply H_app; [exact Hrv|]. apply H_app; [apply H_br|]. 
        apply html_c. apply orb_true_iff in En. destruct En as [En|En]; apply eqb_true in En; subst; reflexivity.
      * out; [|exact I|lia]. apply H_app; [exact Hrv|apply html_repeat].
Qed.

(* ---------- removing the backslashes of emitted HTML ---------- *)
Fixpoint esc_state (e : bool) (s : bytes) : bool :=
  match s with
  | [] => e
  | c :: r => if (c == BSL) && negb e then esc_state true r else esc_state false r
  end.
Lemma unescape_app x : forall e y,
  unescape_go e (x ++ y) = unescape_go e x ++ unescape_go (esc_state e x) y.
Proof.
  induction x as [|c x IH]; intros e y; [reflexivity|]. cbn [app unescape_go esc_state].
  destruct ((c == BSL) && negb e); [apply IH|]. rewrite IH. reflexivity.
Qed.
Lemma unescape_tag x : forall e, ~ In BSL x -> x <> [] -> unescape_go e x = x /\ esc_state e x = false.
Proof.
  induction x as [|c x IH]; intros e H Hne; [congruence|].
  assert (Hc : (c == BSL) = false) by (apply eqb_false; intro; apply H; left; assumption).
  cbn [unescape_go esc_state]. rewrite Hc. cbn [andb].
  destruct x as [|d x]; [split; reflexivity|].
  destruct (IH false) as [I1 I2]; [intro K; apply H; right; exact K|discriminate|].
  rewrite I1, I2. split; reflexivity.
Qed.

Definition no_bslb (x : bytes) : bool :=
  negb (existsb (fun c => c == BSL) x) && negb (Nat.eqb (length x) 0).
Lemma unescape_tagb x e : no_bslb x = true -> unescape_go e x = x /\ esc_state e x = false.
Proof.
  intro H. apply andb_true_iff in H. destruct H as [H1 H2]. apply unescape_tag.
  - intro K. apply negb_true_iff in H1. assert (existsb (fun c => c == BSL) x = true); [|congruence].
    apply existsb_exists. exists BSL. split; [exact K|apply eqb_refl].
  - intros ->. discriminate.
Qed.
Ltac untag := repeat match goal with
  | |- context [ unescape_go ?e (B ?x ++ ?y) ] =>
      rewrite (@unescape_app (B x) e y);
      rewrite (proj1 (@unescape_tagb (B x) e eq_refl)), (proj2 (@unescape_tagb (B x) e eq_refl))
  | |- context [ unescape_go ?e (B ?x) ] => rewrite (proj1 (@unescape_tagb (B x) e eq_refl))
  | |- context [ unescape_go ?e (?x ++ B ?y) ] => rewrite (@unescape_app x e (B y))
  | |- context [ unescape_go ?e (?x ++ B ?y ++ ?z) ] => rewrite (@unescape_app x e (B y ++ z))
  end.

Lemma text_byte_unescape c x e : text_byte c x ->
  (unescape_go e x = x) \/ (unescape_go e x = []).
Proof.
  intro H. inv H; try (left; destruct e; reflexivity).
  cbn [unescape_go]. destruct ((c == BSL) && negb e); [right|left]; reflexivity.
Qed.
Lemma text_bytes_unescape s t : text_bytes s t -> forall e, exists s', text_bytes s' (unescape_go e t).
Proof.
  induction 1 as [|c x s t H Ht IH]; intro e; [exists []; constructor|].
  rewrite unescape_app. destruct (IH (esc_state e x)) as (s' & IH').
  destruct (text_byte_unescape e H) as [->| ->].
  - exists (c :: s'). constructor; assumption.
  - exists s'. exact IH'.
Qed.

Lemma html_unescape raw t : html raw t -> forall e, html raw (unescape_go e t).
Proof.
  induction 1; intro ee.
  - apply H_nil.
  - rewrite unescape_app. apply H_app; auto.
  - destruct (text_byte_unescape ee H) as [-> | ->]; [exact (H_text raw H)|apply H_nil].
  - untag. apply H_em. auto.
  - untag. apply H_strong. auto.
  - untag. destruct (text_bytes_unescape H false) as (s' & H'). exact (H_code raw H').
  - untag. apply H_br.
  - untag. apply H_ndash.
  - untag. apply H_mdash.
  - untag. apply H_link; auto.
  - untag. apply H_auto; auto.
  - untag. apply H_img; auto.
Qed.

Lemma html_mono (p q : Prop) t : (p -> q) -> html p t -> html q t.
Proof.
  intros H. induction 1; try (constructor; auto; fail).
  - exact (H_text q H0).
  - exact (H_code q H0).
Qed.

(* ---------- the whole loop ---------- *)
Lemma ifinish_ok (raw : Prop) rec s len cur v :
  no_nul s -> len <= length s -> len <= cur -> (In "["%char s -> raw) -> rec_ok raw s rec ->
  iinv raw s len cur v -> iout raw (wsafe s) (ifinish rec s v).
Proof.
  intros Hn Hlen Hcur Hraw R [Hrv Hst].
  assert (Tail : forall x, html raw x -> 1 <= i_slink v -> i_slink v <= len ->
    len <> 0 -> iout raw (wsafe s)
      (do t <- rec (skipn (i_slink v) s) (length (skipn (i_slink v) s)) ;
       Ok (i_rv v ++ x ++ B "[" ++ unescape t))).
  { intros x Hx H1 H2 H3.
    assert (HR : iout raw (wsafe s) (rec (skipn (i_slink v) s) (length (skipn (i_slink v) s)))).
    { apply R; auto.
      - apply no_nul_skipn, Hn.
      - rewrite skipn_length. lia.
      - intro K. apply Hraw. exact (in_skipn K).
      - apply wsafe_skipn. }
    destruct (rec (skipn (i_slink v) s) (length (skipn (i_slink v) s))) as [t| |];
      cbn [rbind iout] in *; auto.
    apply H_app; [exact Hrv|]. apply H_app; [exact Hx|].
    apply H_app; [apply html_c; reflexivity|]. apply html_unescape. exact HR. }
  assert (Hbang : html raw (B "!")) by (apply html_c; reflexivity).
  unfold ifinish. destruct v as [st rv start count slink link1]. destruct st; hsimp; try exact Hrv.
  - apply Tail; [apply H_nil| | |]; destruct Hst as (? & ? & [? ?] & ?); lia.
  - apply Tail; [apply H_nil| | |]; destruct Hst as (? & [? ?] & ? & ? & ?); lia.
  - apply Tail; [apply H_nil| | |]; destruct Hst as (? & [? ?] & ? & ? & ?); lia.
  - apply Tail; auto; lia.
  - apply Tail; auto; lia.
  - apply Tail; auto; lia.
  - apply Tail; auto; lia.
Qed.

Lemma ifuel_mono n m : n <= m -> ifuel n <= ifuel m.
Proof. induction 1; [lia|]. cbn [ifuel]. lia. Qed.
Lemma ifuel_pos n : 1 <= ifuel n.
Proof. induction n; cbn [ifuel]; lia. Qed.

Definition ifuel' (n : nat) : nat := match n with 0 => 0 | S m => ifuel m end.
Lemma inl_ok : forall n (raw : Prop) s, length s = n -> no_nul s -> (In "["%char s -> raw) ->
  forall fuel len cur v, len <= length s -> iinv raw s len cur v ->
  rank n cur v + ifuel' n < fuel -> iout raw (wsafe s) (inl fuel s len cur v).
Proof.
  induction n as [n IHn] using (well_founded_induction lt_wf). intros raw s Hs Hn Hraw.
  induction fuel as [|f IHf]; intros len cur v Hlen Hi Hf; [lia|].
  cbn [inl].
  assert (R : rec_ok raw s (fun s' len' => inl f s' len' 0 iv0)).
  { intros s' len' Hn' Hl' Hlen' Hr' Hw.
    assert (HI : iinv raw s' len' 0 iv0) by (split; [apply H_nil|exact I]).
    assert (Hr : rank (length s') 0 iv0 + ifuel' (length s') < f).
    { unfold rank. cbn [i_state iv0]. rewrite Nat.sub_0_r.
      destruct n as [|n']; [lia|]. cbn [ifuel'] in *.
      destruct (length s') as [|m] eqn:El.
      - cbn [ifuel' Nat.mul]. assert (P := ifuel_pos n'). lia.
      - assert (M := @ifuel_mono (S m) n' ltac:(lia)). cbn [ifuel ifuel'] in *. nia. }
    pose proof (IHn (length s') ltac:(lia) raw s' eq_refl Hn' Hr' f len' 0 iv0 Hlen' HI Hr) as K.
    unfold iout in *. destruct (inl f s' len' 0 iv0); auto. }
  destruct (Nat.leb_spec len cur) as [L|L].
  - exact (@ifinish_ok raw _ s len cur v Hn Hlen L Hraw R Hi).
  - destruct (@crd_spec s cur ltac:(lia)) as (c & Ec & Hc & _). rewrite Ec. cbn [rbind].
    specialize (Hc ltac:(lia)).
    pose proof (@istep_ok raw _ s len cur c v Hn Hlen L Hc Hraw R Hi) as St.
    destruct (istep (fun s' len' => inl f s' len' 0 iv0) s len cur c v) as [[cur' v']| |];
      cbn [istep_out rbind iout fst snd] in *; auto.
    destruct St as [St1 St2]. apply IHf; auto. rewrite Hs in St2. lia.
Qed.

Lemma inline_ok s : no_nul s -> iout (In "["%char s) (wsafe s) (inline s).
Proof.
  intro Hn. unfold inline. apply (@inl_ok (length s) (In "["%char s) s eq_refl Hn); auto.
  - split; [apply H_nil|exact I].
  - unfold rank. cbn [i_state iv0]. rewrite Nat.sub_0_r. destruct (length s) as [|m]; [cbn; lia|].
    cbn [ifuel ifuel']. nia.
Qed.
