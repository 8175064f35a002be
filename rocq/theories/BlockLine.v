(* The line ending found in a document, and the levels of its headers. *)
From Verif Require Import Base Utils UtilsProofs Toctree Content InlineSpec InlineProofs BlockSpec BlockProofs.
#[local] Arguments B : simpl never.

(* a step keeps the line ending; the level counts number signs *)
Definition kept (cur : nat) (b : bvars) (cur' : nat) (b' : bvars) : Prop :=
  b_lef b' = b_lef b /\ b_le b' = b_le b /\
  (b_level b' = b_level b \/ (b_level b' <= b_level b + 1 /\ cur' = cur + 1)) /\
  (b_hdrs b' = b_hdrs b \/ exists sl t, b_hdrs b' = toctree_append (b_hdrs b) (b_level b) sl t).
Definition same (b b' : bvars) : Prop :=
  b_lef b' = b_lef b /\ b_le b' = b_le b /\ b_level b' = b_level b /\ b_hdrs b' = b_hdrs b.

Lemma flush_same b b' : flush_item b = Ok b' -> same b b'.
Proof.
  unfold flush_item, same. destruct (b_lines2 b) as [[|x l]|]; try discriminate; intro H.
  - injection H as <-. auto.
  - destruct (inline _); cbn [rbind] in H; inv H. auto.
Qed.
Lemma push_same x b b' : push2 x b = Ok b' -> same b b'.
Proof. unfold push2, same. destruct (b_lines2 b); intro H; inv H. auto. Qed.
Lemma drop_same b b' : drop_items b = Ok b' -> same b b'.
Proof. unfold drop_items, same. destruct (b_lines2 b) as [[|? ?]|]; intro H; inv H; auto. Qed.
Lemma list_end_same tag again cur c last b cur' b' : list_end tag again cur c last b = Ok (cur', b') -> same b b'.
Proof.
  unfold list_end. destruct (is_nl c || last).
  - destruct (flush_item b) as [b2| |] eqn:E; cbn [rbind]; intro H; inv H. apply flush_same in E. exact E.
  - intro H. inv H. repeat split.
Qed.
Lemma same_trans a b c : same a b -> same b c -> same a c.
Proof. unfold same. intros (-> & -> & -> & ->) (-> & -> & -> & ->). auto. Qed.
Lemma list_start_same item plen tag again endst s len cur c last b cur' b' :
  list_start item plen tag again endst s len cur c last b = Ok (cur', b') -> same b b'.
Proof.
  unfold list_start. destruct (is_nl c || last); [|intro H; inv H; repeat split].
  destruct (item _).
  - destruct (flush_item _) as [b2| |] eqn:E; cbn [rbind]; try discriminate. apply flush_same in E.
    destruct (push2 _ _) as [b3| |] eqn:E3; cbn [rbind]; try discriminate. apply push_same in E3.
    assert (K : same b (set_state endst b3)) by (eapply same_trans; [exact E|]; exact E3).
    destruct last; intro H; [apply list_end_same in H; eapply same_trans; eassumption|inv H; exact K].
  - destruct (starts_with _ _).
    + destruct (push2 _ _) as [b3| |] eqn:E3; cbn [rbind]; try discriminate. apply push_same in E3.
      assert (K : same b (set_state endst b3)) by exact E3.
      destruct last; intro H; [apply list_end_same in H; eapply same_trans; eassumption|inv H; exact K].
    + destruct (drop_items _) as [b3| |] eqn:E3; cbn [rbind]; try discriminate. apply drop_same in E3.
      destruct last; intro H; inv H; exact E3.
Qed.
Lemma same_kept cur b cur' b' : same b b' -> kept cur b cur' b'.
Proof. unfold same, kept. intros (-> & -> & -> & ->). auto. Qed.

Lemma bstep_kept rec o s len cur c b cur' b' : bstep rec o s len cur c b = Ok (cur', b') -> kept cur b cur' b'.
Proof.
  intro H. unfold bstep in H. set (last := Nat.eqb cur (len - 1)) in *.
  assert (HT : forall b1, same b b1 -> header_title o s len cur c last b1 = Ok (cur', b') -> kept cur b cur' b').
  { intros b1 (S1 & S2 & S3 & S4) E. unfold header_title in E. destruct (is_nl c || last); [|inv E; apply same_kept; repeat split; assumption].
    destruct (o_fh o), (b_fh (set_end (line_end len cur c b1) b1)), (o_hdrs o); bcbn;
      destruct (inline _); cbn [rbind] in E; inv E; unfold kept; bcbn; rewrite S1, S2, S3, ?S4;
      (repeat (split; [auto; fail|])); eauto. }
  assert (PE : forall b1, same b b1 -> para_end o s cur c last b1 = Ok (cur', b') -> kept cur b cur' b').
  { intros b1 S0 E. apply same_kept. eapply same_trans; [exact S0|]. unfold para_end in E.
    destruct (is_nl c || last); [|inv E; repeat split].
    destruct (o_desc o), (b_desc b1); destruct (inline _); cbn [rbind] in E; inv E; repeat split. }
  destruct (b_state b) eqn:St;
    try (apply same_kept; exact (list_end_same H));
    try (apply same_kept; exact (list_start_same H));
    try (unfold html_end, quote_end, code_end in H; brk; unfold kept; bcbn; repeat split; auto; right; split; lia).
  - destruct (is_sp c); [inv H; apply same_kept; repeat split|].
    destruct (negb (is_nl c)); [inv H; apply same_kept; repeat split|]. eapply HT; [|exact H]. repeat split.
  - eapply HT; [|exact H]. repeat split.
  - destruct (b_prefix b); [apply same_kept; exact (list_start_same H)|]. destruct (is_nl c || last); inv H. apply same_kept. repeat split.
  - destruct (is_sp c); [inv H; apply same_kept; repeat split|].
    destruct (negb (is_nl c || last)); [inv H; apply same_kept; repeat split|].
    apply same_kept. apply list_start_same in H. exact H.
  - destruct last; [eapply PE; [|exact H]|inv H]; destruct (is_nl c || _); try apply same_kept; repeat split.
  - eapply PE; [|exact H]. repeat split.
Qed.

(* the line ending is noted with the first newline; no level exceeds the length *)
Definition L (s : bytes) (cur : nat) (b : bvars) : Prop :=
  (forall i c, i < cur -> nth_error s i = Some c -> newline_byte c -> b_lef b = true) /\
  b_level b <= cur /\ Forall (fun h => 1 <= h_level h <= length s) (b_hdrs b).

Lemma iter_L rec o s len cur b : len = length s -> L s cur b -> cur < len ->
  match iter rec o s len cur b with Ok (cur', b') => L s cur' b' | UB => True | OutOfFuel => True end.
Proof.
  intros El (L1 & L2 & L3) Lt. unfold iter.
  destruct (nth_error s cur) as [c|] eqn:Ec; [|apply nth_error_None in Ec; lia].
  rewrite (crd_at Ec). cbn [rbind].
  destruct (newline_ok b El Ec) as (cu & c1 & b1 & E & Hn1 & Hcu & Hc). rewrite E. cbn [rbind].
  destruct (bstep rec o s len cu c1 b1) as [(cur', b')| |] eqn:Es; auto.
  pose proof (bstep_moves Es) as M. apply bstep_kept in Es. destruct Es as (K1 & K2 & K3 & K4).
  assert (N : b_level b1 = b_level b /\ b_hdrs b1 = b_hdrs b /\ (b_lef b = true -> b_lef b1 = true) /\ (is_nl c = true -> b_lef b1 = true)).
  { unfold note_le in Hc. destruct Hc as [(_ & _ & [(Hn & ->)|(Hn & ->)])|(_ & Hn & _ & _ & ->)]; destruct (b_lef b) eqn:El2; bcbn; rewrite ?El2;
      repeat split; auto; congruence. }
  destruct N as (N1 & N2 & N3 & N4).
  assert (Mc : cu <= cur' <= cu + 1) by (destruct M as [->|(-> & _)]; lia).
  split; [|split].
  - intros i d Hi Hd Hnl. rewrite K1. destruct (Nat.lt_ge_cases i cur) as [Hlt|Hge].
    + apply N3. eapply L1; eassumption.
    + destruct (Nat.eq_dec i cur) as [->|Hne].
      * apply N4. rewrite Ec in Hd. inv Hd. apply is_nl_iff, Hnl.
      * destruct Hc as [(-> & _)|(-> & Hc & _)]; [lia|apply N4, Hc].
  - destruct K3 as [->|(K3 & ->)]; lia.
  - rewrite N2, N1 in K4. destruct K4 as [->|(sl & t & ->)]; [exact L3|]. unfold toctree_append.
    destruct (Nat.eqb_spec (b_level b) 0); [exact L3|]. apply Forall_app. split; [exact L3|].
    constructor; [|constructor]. cbn. lia.
Qed.

Lemma content_line fuel o s le b : content_parse fuel o s le = Ok b ->
  (Exists newline_byte s -> b_lef b = true) /\ Forall (fun h => 1 <= h_level h <= length s) (b_hdrs b).
Proof.
  destruct fuel as [|f]; [discriminate|]. cbn [content_parse]. set (rec := fun t e => _). intro E.
  pose proof (@bloop_inv rec o s (length s) (L s) True True eq_refl
    (fun cur b H L => iter_L rec o eq_refl H L) (2 * length s) 0 (bv0 le)) as K.
  rewrite E in K. destruct K as (K1 & K2 & K3).
  - split; [intros; lia|]. split; [reflexivity|constructor].
  - lia.
  - pose proof (need_le (length s) 0 (bv0 le)). lia.
  - split; [|exact K3]. intro H. apply Exists_exists in H. destruct H as (c & Hi & Hn).
    apply In_nth_error in Hi. destruct Hi as (i & Hi). eapply K1; [|exact Hi|exact Hn].
    apply nth_error_Some. congruence.
Qed.
