(* Cutting UTF-8 texts at ASCII bytes. *)
From Verif Require Import Base Utils Utf8 Utf8Proofs.
#[local] Open Scope nat_scope.

Definition ok (s : bytes) : Prop := run_spec 0 s = 0.
Lemma utf8_ok s : utf8 s <-> ok s.
Proof.
  split; [intros (cps & Hf & ->); apply encode_concat_run; exact Hf|intro H; eapply accept_utf8; [reflexivity|exact H]].
Qed.
Lemma run_states s : forall st, In st states -> In (run_spec st s) states.
Proof. induction s as [|b s IH]; intros st H; [exact H|]. cbn [run_spec]. apply IH. apply (@step_eq st b H). Qed.

Definition asc (c : ascii) : bool := N.ltb (nb c) 128.
Lemma step_asc c : asc c = true -> step_spec 0 c = 0.
Proof. unfold asc. intro H. unfold step_spec. rewrite H. reflexivity. Qed.
Lemma step_asc_bad c : asc c = true -> forall st, In st states -> st <> 0 -> step_spec st c = 12.
Proof.
  intros H st Hs Hn. unfold asc in H. apply N.ltb_lt in H. unfold step_spec, btw.
  assert (K : forall lo hi, (128 <= lo)%N -> ((lo <=? nb c) && (nb c <=? hi))%N = false).
  { intros lo hi L. destruct (N.leb_spec lo (nb c)); [lia|reflexivity]. }
  repeat (destruct Hs as [<-|Hs]; [try contradiction; try (rewrite K by lia); reflexivity|]). destruct Hs.
Qed.
(* what comes before an ASCII byte ends with a whole character *)
Lemma run_before x c y st : In st states -> asc c = true -> run_spec st (x ++ c :: y) <> 12 -> run_spec st x = 0.
Proof.
  intros Hs Ha Hr. rewrite run_spec_app in Hr. cbn [run_spec] in Hr. destruct (Nat.eq_dec (run_spec st x) 0) as [E|N]; [exact E|].
  rewrite (step_asc_bad Ha (run_states x Hs) N), run_12 in Hr. contradiction.
Qed.
Lemma in0 : In 0 states. Proof. left. reflexivity. Qed.

Lemma ok_nil : ok []. Proof. reflexivity. Qed.
Lemma ok_app x y : ok x -> ok y -> ok (x ++ y).
Proof. unfold ok. intros H K. rewrite run_spec_app, H. exact K. Qed.
Lemma ok_cons c x : asc c = true -> ok x -> ok (c :: x).
Proof. intros H K. unfold ok. cbn [run_spec]. rewrite (step_asc H). exact K. Qed.
Lemma ok_asc x : forallb asc x = true -> ok x.
Proof.
  induction x as [|c x IH]; [reflexivity|]. cbn [forallb]. intro H. apply andb_true_iff in H. apply ok_cons; [apply H|apply IH; apply H].
Qed.
Lemma ok_tail x y : ok x -> ok (x ++ y) -> ok y.
Proof. unfold ok. intros H K. rewrite run_spec_app, H in K. exact K. Qed.
Lemma ok_split x c y : asc c = true -> ok (x ++ c :: y) -> ok x /\ ok y.
Proof.
  intros Ha H. assert (E : ok x) by (apply (@run_before x c y 0 in0 Ha); unfold ok in H; rewrite H; discriminate).
  split; [exact E|]. apply (ok_tail E) in H. unfold ok in H. cbn [run_spec] in H. rewrite (step_asc Ha) in H. exact H.
Qed.
Lemma ok_concat l : Forall ok l -> ok (concat l).
Proof. induction 1; [reflexivity|]. apply ok_app; assumption. Qed.

(* between two characters *)
Definition bd (s : bytes) (i : nat) : Prop := run_spec 0 (firstn i s) = 0.
Lemma bd_0 s : bd s 0. Proof. reflexivity. Qed.
Lemma bd_end s i : ok s -> length s <= i -> bd s i.
Proof. intros H L. unfold bd. rewrite firstn_all2 by exact L. exact H. Qed.
Lemma nth_split (s : bytes) i c : nth_error s i = Some c -> s = firstn i s ++ c :: skipn (i + 1) s.
Proof.
  intro H. apply nth_error_split in H. destruct H as (a & b & -> & <-). rewrite firstn_app, Nat.sub_diag, firstn_all, app_nil_r.
  rewrite skipn_app, skipn_all2 by lia. replace (length a + 1 - length a) with 1 by lia. reflexivity.
Qed.
Lemma firstn_snoc (s : bytes) i c : nth_error s i = Some c -> firstn (i + 1) s = firstn i s ++ [c].
Proof.
  intro H. apply nth_error_split in H. destruct H as (a & b & -> & <-). rewrite !firstn_app, Nat.sub_diag, firstn_all, app_nil_r.
  rewrite firstn_all2 by lia. replace (length a + 1 - length a) with 1 by lia. reflexivity.
Qed.
Lemma bd_asc s i c : ok s -> nth_error s i = Some c -> asc c = true -> bd s i /\ bd s (i + 1).
Proof.
  intros H E Ha. assert (K : bd s i).
  { pose proof (nth_split E) as S. unfold ok in H. rewrite S in H. apply (@run_before _ c (skipn (i + 1) s) 0 in0 Ha). rewrite H. discriminate. }
  split; [exact K|]. unfold bd in *. rewrite (firstn_snoc E), run_spec_app, K. cbn [run_spec]. apply step_asc. exact Ha.
Qed.
Lemma bd_skip s i : ok s -> bd s i -> ok (skipn i s).
Proof. intros H K. rewrite <- (firstn_skipn i s) in H. exact (ok_tail K H). Qed.
Lemma firstn_plus (s : bytes) a b : firstn (a + b) s = firstn a s ++ firstn b (skipn a s).
Proof.
  revert s. induction a as [|a IH]; intro s; [reflexivity|]. destruct s as [|c s]; [cbn; rewrite firstn_nil; reflexivity|].
  cbn [plus firstn skipn app]. rewrite IH. reflexivity.
Qed.
Lemma bd_shift s a b : bd s a -> bd (skipn a s) b <-> bd s (a + b).
Proof. intro H. unfold bd in *. rewrite firstn_plus, run_spec_app, H. reflexivity. Qed.
Lemma bd_first s i : bd s i -> ok (firstn i s). Proof. exact (fun H => H). Qed.

Lemma asc_of (f : ascii -> bool) : forallb (fun c => implb (f c) (asc c)) all_bytes = true -> forall c, f c = true -> asc c = true.
Proof. intros H c E. pose proof (@forall_bytes (fun c => implb (f c) (asc c)) H c) as K. cbv beta in K. rewrite E in K. exact K. Qed.
Lemma ok_lstrip s : ok s -> ok (lstrip s).
Proof.
  induction s as [|c s IH]; [auto|]. intro H. cbn [lstrip]. destruct (strip_blank c) eqn:E; [|exact H]. apply IH.
  apply (@ok_split [] c s) in H; [apply H|]. exact (@asc_of strip_blank eq_refl c E).
Qed.
Lemma ok_rstrip s : ok s -> ok (rstrip s).
Proof.
  intro H. unfold rstrip. assert (G : forall n, n <= length s -> bd s n -> ok (rstrip_from s n)); [|apply G; [lia|apply bd_end; [exact H|lia]]].
  induction n as [|i IH]; intros L K; cbn [rstrip_from]; [exact H|].
  destruct (strip_blank (nth i s NUL)) eqn:E; cbn [negb].
  - destruct (Nat.eqb i 0); [reflexivity|]. apply IH; [lia|].
    destruct (@bd_asc s i (nth i s NUL) H) as [A _]; [apply nth_error_nth'; lia|exact (@asc_of strip_blank eq_refl _ E)|exact A].
  - rewrite Nat.add_1_r. exact K.
Qed.
Lemma ok_strip s : ok s -> ok (strip s).
Proof. intro H. apply ok_lstrip, ok_rstrip, H. Qed.
