From Coq Require Import Permutation Sorting.Sorted.
From Verif Require Import Base Sort.

Section Proofs.
Variable A : Type.
Variable cmp : A -> A -> Z.

(* functional reading of one pass *)
Fixpoint bubble (x : A) (r : list A) : list A * A * bool :=
  match r with
  | [] => ([], x, false)
  | y :: r' =>
      if (0 <? cmp x y)%Z
      then let '(o, m, _) := bubble x r' in (y :: o, m, true)
      else let '(o, m, s) := bubble y r' in (x :: o, m, s)
  end.

Lemma pass_bubble r : forall fuel done x fixed sw,
  length r < fuel ->
  pass cmp fuel (done ++ (x :: r) ++ fixed) (length done) (length done + S (length r)) sw
  = Ok (let '(o, m, s) := bubble x r in
        (done ++ (o ++ [m]) ++ fixed, length done + length r, s || sw)).
Proof.
  induction r as [|y r IH]; intros fuel done x fixed sw Hf; destruct fuel as [|fuel];
    simpl in Hf; try lia; cbn [pass].
  - cbn [app]. rewrite nth_error_mid. simpl length. rewrite Nat.eqb_refl.
    simpl. rewrite Nat.add_0_r. reflexivity.
  - cbn [app]. rewrite nth_error_mid. simpl length.
    destruct (Nat.eqb_spec (length done + 1) (length done + S (S (length r)))) as [H|_]; [lia|].
    assert (Hy : nth_error (done ++ x :: y :: r ++ fixed) (length done + 1) = Some y).
    { rewrite nth_error_app2 by lia. replace (length done + 1 - length done) with 1 by lia. reflexivity. }
    rewrite Hy. cbn [bubble]. destruct (0 <? cmp x y)%Z.
    + assert (Hsw : swap_at (done ++ x :: y :: r ++ fixed) (length done) x y
                    = (done ++ [y]) ++ (x :: r) ++ fixed).
      { unfold swap_at. rewrite firstn_app, firstn_all, Nat.sub_diag. simpl firstn.
        rewrite app_nil_r, skipn_app, skipn_all2 by lia.
        replace (length done + 2 - length done) with 2 by lia.
        simpl. rewrite <- app_assoc. reflexivity. }
      rewrite Hsw.
      replace (length done + 1) with (length (done ++ [y])) by (rewrite app_length; simpl; lia).
      replace (length done + S (S (length r))) with (length (done ++ [y]) + S (length r))
        by (rewrite app_length; simpl; lia).
      rewrite IH by lia. destruct (bubble x r) as [[o m] s].
      rewrite <- !app_assoc, app_length. simpl. rewrite orb_true_r.
      do 3 f_equal. lia.
    + replace (done ++ x :: y :: r ++ fixed) with ((done ++ [x]) ++ (y :: r) ++ fixed)
        by (rewrite <- app_assoc; reflexivity).
      replace (length done + 1) with (length (done ++ [x])) by (rewrite app_length; simpl; lia).
      replace (length done + S (S (length r))) with (length (done ++ [x]) + S (length r))
        by (rewrite app_length; simpl; lia).
      rewrite IH by lia. destruct (bubble y r) as [[o m] s].
      rewrite <- !app_assoc, app_length. simpl.
      do 3 f_equal. lia.
Qed.

Lemma bubble_perm r : forall x, let '(o, m, _) := bubble x r in Permutation (o ++ [m]) (x :: r).
Proof.
  induction r as [|y r IH]; intro x; simpl; [reflexivity|].
  destruct (0 <? cmp x y)%Z.
  - specialize (IH x). destruct (bubble x r) as [[o m] s]. simpl. rewrite IH. apply perm_swap.
  - specialize (IH y). destruct (bubble y r) as [[o m] s]. simpl. rewrite IH. reflexivity.
Qed.

Lemma bubble_length r : forall x, length (fst (fst (bubble x r))) = length r.
Proof.
  induction r as [|y r IH]; intro x; simpl; [reflexivity|].
  destruct (0 <? cmp x y)%Z.
  - specialize (IH x). destruct (bubble x r) as [[o m] s]. simpl in *. lia.
  - specialize (IH y). destruct (bubble y r) as [[o m] s]. simpl in *. lia.
Qed.

(* the loop over an unsorted prefix x :: r and a fixed suffix, as a relation
   carried through every pass *)
Lemma sort_loop_ind (P : list A -> list A -> Prop) :
  (forall x r fixed o m, bubble x r = (o, m, true) -> P (x :: r) fixed -> P o (m :: fixed)) ->
  forall n fuel pre fixed,
    length pre = S n -> n < fuel -> P pre fixed ->
    exists x r fixed' o m, P (x :: r) fixed' /\ bubble x r = (o, m, false)
      /\ sort_loop cmp fuel (pre ++ fixed) (length pre) = Ok (o ++ [m] ++ fixed').
Proof.
  intros Hstep. induction n as [|n IH]; intros fuel pre fixed Hlen Hf HP;
    (destruct pre as [|x r]; [discriminate|]); simpl in Hlen; injection Hlen as Hlen;
    (destruct fuel as [|fuel]; [lia|]); cbn [sort_loop].
  - destruct r as [|y r]; [|discriminate].
    pose proof (@pass_bubble [] (S (length ([x] ++ fixed))) [] x fixed false ltac:(simpl; lia)) as Hp.
    simpl app in Hp. cbn [length Nat.add] in Hp.
    simpl app. cbn [length Nat.add]. rewrite Hp. cbn.
    exists x, [], fixed, [], x. auto.
  - pose proof (@pass_bubble r (S (length ((x :: r) ++ fixed))) [] x fixed false) as Hp.
    cbn [length Nat.add app] in Hp. rewrite app_length in Hp.
    specialize (Hp ltac:(lia)). cbn [length Nat.add app]. rewrite app_length.
    rewrite Hp. pose proof (@bubble_length r x) as Hbl.
    destruct (bubble x r) as [[o m] s] eqn:Eb. cbn [rbind]. rewrite orb_false_r.
    destruct s.
    + specialize (IH fuel o (m :: fixed)).
      simpl in Hbl. rewrite <- app_assoc.
      replace (length r) with (length o) by exact Hbl.
      apply IH; [lia|lia|]. apply (@Hstep x r fixed o m); assumption.
    + exists x, r, fixed, o, m. rewrite <- app_assoc. auto.
Qed.

(* C11, first part: any comparison function whatsoever *)
Lemma sort_any l : exists l', slist_sort cmp l = Ok l' /\ Permutation l l'.
Proof.
  destruct l as [|a l].
  - exists []. split; [reflexivity|constructor].
  - unfold slist_sort.
    destruct (@sort_loop_ind (fun pre fixed => Permutation (a :: l) (pre ++ fixed)))
      with (n := length l) (fuel := length (a :: l)) (pre := a :: l) (fixed := @nil A)
      as (x & r & fixed & o & m & HP & Hb & E).
    + intros x r fixed o m Hb HP. pose proof (@bubble_perm r x) as Hp. rewrite Hb in Hp.
      rewrite HP, <- Hp, <- app_assoc. reflexivity.
    + reflexivity.
    + simpl; lia.
    + rewrite app_nil_r. reflexivity.
    + rewrite app_nil_r in E. eexists. split; [exact E|].
      pose proof (@bubble_perm r x) as Hp. rewrite Hb in Hp.
      rewrite HP, <- Hp, <- app_assoc. reflexivity.
Qed.

Definition le (a b : A) : Prop := (cmp a b <= 0)%Z.
Definition leb (a b : A) : bool := (cmp a b <=? 0)%Z.
(* a and b compare equal *)
Definition eqvb (a b : A) : bool := leb a b && leb b a.

Section Preorder.
Hypothesis total : forall a b, le a b \/ le b a.
Hypothesis trans : forall a b c, le a b -> le b c -> le a c.

Lemma bubble_max r : forall x, let '(o, m, _) := bubble x r in
  Forall (fun y => le y m) o /\ le x m.
Proof.
  induction r as [|y r IH]; intro x; simpl.
  - split; [constructor|]. destruct (total x x); assumption.
  - destruct (Z.ltb_spec 0 (cmp x y)) as [H|H].
    + specialize (IH x). destruct (bubble x r) as [[o m] s]. destruct IH as [IH1 IH2].
      split; [|exact IH2]. constructor; [|exact IH1].
      apply trans with x; [|exact IH2]. destruct (total x y) as [Ht|Ht]; [unfold le in Ht; lia|exact Ht].
    + specialize (IH y). destruct (bubble y r) as [[o m] s]. destruct IH as [IH1 IH2].
      assert (Hxy : le x y) by exact H.
      split; [constructor; [|exact IH1]|]; apply trans with y; assumption.
Qed.

Lemma bubble_noswap r : forall x, let '(o, m, s) := bubble x r in
  s = false -> o ++ [m] = x :: r /\ StronglySorted le (x :: r).
Proof.
  induction r as [|y r IH]; intro x; simpl.
  - intros _. split; [reflexivity|]. repeat constructor.
  - destruct (Z.ltb_spec 0 (cmp x y)) as [H|H].
    + destruct (bubble x r) as [[o m] s]. discriminate.
    + specialize (IH y). destruct (bubble y r) as [[o m] s]. intro Hs.
      destruct (IH Hs) as [H1 H2]. split; [simpl; rewrite H1; reflexivity|].
      constructor; [exact H2|]. inversion H2 as [|? ? Hss Hall]; subst.
      assert (Hxy : le x y) by exact H.
      constructor; [exact Hxy|].
      eapply Forall_impl; [|exact Hall]. intros z Hz. simpl in Hz. eapply trans; eassumption.
Qed.

Lemma bubble_stable z r : forall x, let '(o, m, _) := bubble x r in
  filter (eqvb z) (o ++ [m]) = filter (eqvb z) (x :: r).
Proof.
  induction r as [|y r IH]; intro x; simpl; [reflexivity|].
  destruct (Z.ltb_spec 0 (cmp x y)) as [H|H].
  - specialize (IH x). destruct (bubble x r) as [[o m] s]. simpl in *.
    rewrite IH. destruct (eqvb z y) eqn:Ey; [|reflexivity].
    destruct (eqvb z x) eqn:Ex; [|reflexivity]. exfalso.
    unfold eqvb, leb in *. apply andb_true_iff in Ex, Ey. destruct Ex as [_ Ex], Ey as [Ey _].
    assert (Hxy : le x y) by (apply trans with z; unfold le; lia). unfold le in Hxy. lia.
  - specialize (IH y). destruct (bubble y r) as [[o m] s]. simpl in *.
    rewrite IH. reflexivity.
Qed.

Lemma sorted_app l1 l2 : StronglySorted le l1 -> StronglySorted le l2 ->
  Forall (fun a => Forall (le a) l2) l1 -> StronglySorted le (l1 ++ l2).
Proof.
  induction l1 as [|a l1 IH]; intros H1 H2 H3; [exact H2|].
  inversion H1; inversion H3; subst. simpl. constructor; [auto|].
  apply Forall_app. split; assumption.
Qed.

Lemma sort_preorder l : exists l', slist_sort cmp l = Ok l'
  /\ StronglySorted le l'
  /\ forall z, filter (eqvb z) l' = filter (eqvb z) l.
Proof.
  destruct l as [|a l].
  - exists []. repeat split; [constructor].
  - unfold slist_sort.
    destruct (@sort_loop_ind (fun pre fixed =>
        (StronglySorted le fixed /\ Forall (fun a => Forall (le a) fixed) pre)
        /\ forall z, filter (eqvb z) (pre ++ fixed) = filter (eqvb z) (a :: l)))
      with (n := length l) (fuel := length (a :: l)) (pre := a :: l) (fixed := @nil A)
      as (x & r & fixed & o & m & ((HS & HF) & Hst) & Hb & E).
    + intros x r fixed o m Hb ((HS & HF) & Hst).
      pose proof (@bubble_perm r x) as Hp. rewrite Hb in Hp.
      pose proof (@bubble_max r x) as Hm. rewrite Hb in Hm. destruct Hm as [Hm _].
      assert (HF' : Forall (fun a => Forall (le a) fixed) (o ++ [m])).
      { rewrite Forall_forall in *. intros y Hy. apply HF.
        eapply Permutation_in; [exact Hp|exact Hy]. }
      apply Forall_app in HF'. destruct HF' as [HFo HFm]. inversion HFm as [|? ? HFm' _]; subst.
      split; [split|].
      * constructor; assumption.
      * rewrite Forall_forall in *. intros y Hy. constructor; auto.
      * intro z. rewrite <- Hst. rewrite !filter_app.
        pose proof (@bubble_stable z r x) as Hs. rewrite Hb in Hs.
        rewrite <- Hs, filter_app, <- app_assoc. simpl.
        destruct (eqvb z m); reflexivity.
    + reflexivity.
    + simpl; lia.
    + split; [split; [constructor|]|].
      * rewrite Forall_forall. intros; constructor.
      * intro z. rewrite app_nil_r. reflexivity.
    + rewrite app_nil_r in E. eexists. split; [exact E|].
      pose proof (@bubble_noswap r x) as Hn. rewrite Hb in Hn.
      destruct (Hn eq_refl) as [H1 H2].
      rewrite app_assoc, H1. split.
      * apply sorted_app; assumption.
      * exact Hst.
Qed.
End Preorder.
End Proofs.
