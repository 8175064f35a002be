(* Properties C99 and C100: commands whose system calls fail. *)
From Verif Require Import Base Utils BlogcCmd Exec ExecSpec.
#[local] Arguments B : simpl never.

Lemma read_all_spec d rs : forall acc tr o, read_all d acc rs = (tr, o) ->
  Forall (fun c => c = ERead d) tr /\
  (forall l, until_end rs l -> o = Some (match acc with Some a => Some (a ++ concat l) | None => or_null l end)) /\
  (o <> None -> exists l, until_end rs l).
Proof.
  induction rs as [|[[|c x]|] rs IH]; intros acc tr o H; cbn [read_all] in H.
  - injection H as <- <-. split; [repeat constructor|]. split; [|intros _; exists []; constructor].
    intros l Hl. inversion Hl; subst. cbn. destruct acc; rewrite ?app_nil_r; reflexivity.
  - injection H as <- <-. split; [repeat constructor|]. split; [|intros _; exists []; constructor].
    intros l Hl. inversion Hl; subst; [|congruence]. cbn. destruct acc; rewrite ?app_nil_r; reflexivity.
  - destruct (read_all d _ rs) as [tr' o'] eqn:E. injection H as <- <-. destruct (IH _ _ _ E) as (H1 & H2 & H3).
    split; [constructor; [reflexivity|exact H1]|]. split.
    + intros l Hl. inversion Hl as [| |? ? l' _ Hl']; subst. rewrite (H2 l' Hl'). destruct acc; cbn [or_null concat]; rewrite <- ?app_assoc; reflexivity.
    + intro N. destruct (H3 N) as (l & Hl). exists ((c :: x) :: l). constructor; [discriminate|exact Hl].
  - injection H as <- <-. split; [repeat constructor|]. split; [|congruence]. intros l Hl. inversion Hl.
Qed.
Lemma reads_open d tr : Forall (fun c => c = ERead d) tr -> forall l t, is_open l d = true -> opened_after l (tr ++ t) = opened_after l t.
Proof. induction 1 as [|c tr -> H IH]; intros l t Hd; [reflexivity|]. cbn [app opened_after]. rewrite Hd. apply IH, Hd. Qed.
Lemma reads_count d tr c : Forall (fun c => c = ERead d) tr -> c <> ERead d -> ~ In c tr.
Proof. intros H N Hi. rewrite Forall_forall in H. exact (N (H c Hi)). Qed.

(* C99: whichever calls fail, no descriptor is used after it is closed or closed twice, and none is
   left open. *)
Theorem C99_descriptors y input : opened_after [] (fst (exec_command y input)) = Some [].
Proof.
  unfold exec_command. destruct (y_in y); [|reflexivity]. destruct (y_out y); [|reflexivity]. destruct (y_err y); [|reflexivity].
  destruct (y_fork y); [|reflexivity]. cbn [negb].
  destruct (read_all Out0 None (y_reads_out y)) as [t1 o1] eqn:E1. destruct (read_all_spec E1) as (H1 & _).
  destruct (read_all Err0 None (y_reads_err y)) as [t2 o2] eqn:E2. destruct (read_all_spec E2) as (H2 & _).
  destruct input as [x|]; [destruct (y_write y)|]; destruct o1 as [o1|]; try destruct o2 as [o2|]; cbn [negb fst app];
    try reflexivity; cbn; rewrite ?(reads_open H1 _ (eq_refl : is_open [Err0; Out0] Out0 = true)); cbn;
    rewrite ?(reads_open H2 _ (eq_refl : is_open [Err0] Err0 = true)); reflexivity.
Qed.
Print Assumptions C99_descriptors.

(* C99: the command is started at most once, and only with all three pipes; it is waited for, once and
   at the end, exactly if there is no error. *)
Theorem C99_waited_partial y input tr r : exec_command y input = (tr, r) ->
  (In EFork tr <-> y_in y && y_out y && y_err y && y_fork y = true) /\
  (r <> CmdError <-> In EWait tr) /\
  (In EWait tr -> exists u, tr = u ++ [EWait] /\ ~ In EWait u /\ In EFork u).
Proof.
  unfold exec_command. destruct (y_in y); [|intro H; injection H as <- <-; cbn; intuition congruence].
  destruct (y_out y); [|intro H; injection H as <- <-; cbn; intuition congruence].
  destruct (y_err y); [|intro H; injection H as <- <-; cbn; intuition congruence].
  destruct (y_fork y); [|intro H; injection H as <- <-; cbn; intuition congruence]. cbn [negb andb].
  destruct (read_all Out0 None (y_reads_out y)) as [t1 o1] eqn:E1. destruct (read_all_spec E1) as (H1 & _).
  destruct (read_all Err0 None (y_reads_err y)) as [t2 o2] eqn:E2. destruct (read_all_spec E2) as (H2 & _).
  assert (N1 : ~ In EWait t1) by (apply (reads_count H1); discriminate).
  assert (N2 : ~ In EWait t2) by (apply (reads_count H2); discriminate).
  set (w := match input with Some x => [EWrite In1 (cstr x)] | None => [] end).
  assert (Nw : ~ In EWait w) by (unfold w; destruct input; cbn; intuition discriminate).
  set (bad := match input with Some _ => _ | None => _ end).
  destruct bad; [intro H; injection H as <- <-|destruct o1 as [o1|]; [destruct o2 as [o2|]|]; intro H; injection H as <- <-].
  - split; [cbn; split; auto 10|]. split; [|]; cbn; rewrite !in_app_iff; cbn; intuition congruence.
  - split; [cbn; split; auto 10|]. split.
    + cbn. rewrite !in_app_iff. cbn. rewrite !in_app_iff. cbn. rewrite !in_app_iff. cbn. split; [intuition|discriminate].
    + intros _. eexists (([EPipe In0 In1; EPipe Out0 Out1; EPipe Err0 Err1] ++ [EFork; EClose In0; EClose Out1; EClose Err1]) ++ w ++ [EClose In1] ++ t1 ++ [EClose Out0] ++ t2 ++ [EClose Err0]).
      split; [rewrite <- !app_assoc; reflexivity|]. split; [|cbn; auto 10].
      cbn. rewrite !in_app_iff. cbn. rewrite !in_app_iff. cbn. rewrite !in_app_iff. cbn. intuition discriminate.
  - split; [cbn; split; auto 10|]. split; [|]; cbn; rewrite !in_app_iff; cbn; rewrite !in_app_iff; cbn; rewrite !in_app_iff; cbn; intuition congruence.
  - split; [cbn; split; auto 10|]. split; [|]; cbn; rewrite !in_app_iff; cbn; rewrite !in_app_iff; cbn; intuition congruence.
Qed.
Print Assumptions C99_waited_partial.

(* The claim that a command that was started is waited for is false: not if reading what it says fails. *)
Theorem C99_waited_refuted : exists y input, In EFork (fst (exec_command y input)) /\ ~ In EWait (fst (exec_command y input)).
Proof.
  exists (Answers true true true true true [Some (B "a"); None] [] 0), (Some (B "x")). split; [vm_compute; auto 10|].
  intro H. vm_compute in H. repeat (destruct H as [H|H]; [discriminate|]). exact H.
Qed.
Print Assumptions C99_waited_refuted.

#[local] Ltac nin := cbn; let H := fresh in intro H; repeat (destruct H as [H|H]; [discriminate|]); exact H.
(* C99: while it reads, blogc-make holds no end of a pipe that is written to: the command sees the end of
   its input, and the reading ends when the command does. *)
Theorem C99_ends y input u d v : fst (exec_command y input) = u ++ ERead d :: v ->
  In (EClose In1) u /\ In (EClose Out1) u /\ In (EClose Err1) u.
Proof.
  assert (F : forall (a b u v : list call) x, a ++ b = u ++ x :: v -> ~ In x a -> exists u', u = a ++ u').
  { induction a as [|c a IH]; intros b u' v' x E N; [exists u'; reflexivity|]. destruct u' as [|k u'].
    - injection E as -> _. destruct N. left. reflexivity.
    - injection E as -> E. destruct (IH _ _ _ _ E) as (w & ->); [intro; apply N; right; assumption|]. exists w. reflexivity. }
  set (pre := [EPipe In0 In1; EPipe Out0 Out1; EPipe Err0 Err1; EFork; EClose In0; EClose Out1; EClose Err1] ++
    match input with Some x => [EWrite In1 (cstr x)] | None => [] end ++ [EClose In1]).
  assert (P : forall t, fst (exec_command y input) = pre ++ t -> fst (exec_command y input) = u ++ ERead d :: v ->
    In (EClose In1) u /\ In (EClose Out1) u /\ In (EClose Err1) u).
  { intros t E1 E2. rewrite E1 in E2. destruct (F _ _ _ _ _ E2) as (w & ->).
    - unfold pre. destruct input; nin.
    - unfold pre. rewrite !in_app_iff. cbn. auto 20. }
  assert (N : ~ In (ERead d) (fst (exec_command y input)) -> fst (exec_command y input) = u ++ ERead d :: v ->
    In (EClose In1) u /\ In (EClose Out1) u /\ In (EClose Err1) u).
  { intros H E. destruct H. rewrite E. apply in_elt. }
  revert P N. unfold exec_command. destruct (y_in y); [|intros _ N; apply N; nin].
  destruct (y_out y); [|intros _ N; apply N; nin].
  destruct (y_err y); [|intros _ N; apply N; nin].
  destruct (y_fork y); [|intros _ N; apply N; nin]. cbn [negb].
  set (bad := match input with Some _ => negb (y_write y) | None => false end). clearbody bad. destruct bad.
  { intros _ N; apply N; destruct input; nin. }
  intros P _. destruct (read_all Out0 None (y_reads_out y)) as [t1 [o1|]].
  - destruct (read_all Err0 None (y_reads_err y)) as [t2 [o2|]]; eapply P; unfold pre; cbn [fst]; rewrite <- !app_assoc; reflexivity.
  - eapply P; unfold pre; cbn [fst]; rewrite <- !app_assoc; reflexivity.
Qed.
Print Assumptions C99_ends.

(* C99: without failures the result is the status of the command and all that it wrote, NULL if that is
   nothing; with one it is an error. *)
Theorem C99_result y input :
  (snd (exec_command y input) <> CmdError <->
   y_in y = true /\ y_out y = true /\ y_err y = true /\ y_fork y = true /\ (input <> None -> y_write y = true) /\
   (exists l, until_end (y_reads_out y) l) /\ (exists l, until_end (y_reads_err y) l)) /\
  (forall l l', snd (exec_command y input) <> CmdError -> until_end (y_reads_out y) l -> until_end (y_reads_err y) l' ->
   snd (exec_command y input) = CmdDone (y_status y) (or_null l) (or_null l')).
Proof.
  unfold exec_command. destruct (y_in y); [|cbn; split; [split; [congruence|intros (H & _); discriminate]|congruence]].
  destruct (y_out y); [|cbn; split; [split; [congruence|intros (_ & H & _); discriminate]|congruence]].
  destruct (y_err y); [|cbn; split; [split; [congruence|intros (_ & _ & H & _); discriminate]|congruence]].
  destruct (y_fork y); [|cbn; split; [split; [congruence|intros (_ & _ & _ & H & _); discriminate]|congruence]].
  cbn [negb].
  destruct (read_all Out0 None (y_reads_out y)) as [t1 o1] eqn:E1. destruct (read_all_spec E1) as (_ & G1 & X1).
  destruct (read_all Err0 None (y_reads_err y)) as [t2 o2] eqn:E2. destruct (read_all_spec E2) as (_ & G2 & X2).
  set (bad := match input with Some _ => negb (y_write y) | None => false end).
  assert (Hb : bad = false <-> (input <> None -> y_write y = true)).
  { unfold bad. destruct input, (y_write y); cbn; intuition congruence. }
  destruct bad.
  { cbn. split; [|congruence]. split; [congruence|]. intros (_ & _ & _ & _ & H & _). apply Hb in H. discriminate. }
  assert (Hw : input <> None -> y_write y = true) by (apply Hb; reflexivity).
  destruct o1 as [o1|].
  - specialize (X1 ltac:(discriminate)). destruct o2 as [o2|]; cbn [snd].
    + specialize (X2 ltac:(discriminate)). split; [split; [intros _|discriminate]; repeat (split; [assumption || reflexivity|]); assumption|].
      intros l l' _ Hl Hl'. specialize (G1 l Hl). specialize (G2 l' Hl'). congruence.
    + split; [|congruence]. split; [congruence|]. intros (_ & _ & _ & _ & _ & _ & l & Hl). specialize (G2 l Hl). discriminate.
  - cbn [snd]. split; [|congruence]. split; [congruence|]. intros (_ & _ & _ & _ & _ & (l & Hl) & _). specialize (G1 l Hl). discriminate.
Qed.
Print Assumptions C99_result.
Example C99_example (y := Answers true true true true true [Some (B "ab"); Some (B "c")] [] 3) :
  until_end (y_reads_out y) [B "ab"; B "c"] /\ snd (exec_command y (Some (B "in"))) = CmdDone 3 (Some (B "abc")) None /\
  snd (exec_command y None) <> CmdError.
Proof. split; [repeat constructor; discriminate|]. split; [reflexivity|discriminate]. Qed.

(* C100: when blogc fails to give a variable for another reason than the variable not being set, and
   says why, blogc-make repeats what it says; if the variable is not set it says nothing. *)
Theorem C100_says_partial s out e : s <> 0 -> s <> 78 ->
  get_variable_says (CmdDone s out (Some e)) = Ok (B "blogc-make: error: " ++ strip (cstr e) ++ [LF]).
Proof. intros H1 H2. cbn. apply Nat.eqb_neq in H1, H2. rewrite H1, H2. reflexivity. Qed.
Print Assumptions C100_says_partial.
Theorem C100_silent r : get_variable_says r = Ok [] <-> r = CmdError \/ exists s out err, r = CmdDone s out err /\ (s = 0 \/ s = 78).
Proof.
  destruct r as [|s out err]; [cbn; tauto|]. cbn. destruct (Nat.eqb_spec s 0) as [->|H0].
  { split; [intros _; right; eauto 8|reflexivity]. }
  destruct (Nat.eqb_spec s 78) as [->|H1]; cbn [negb].
  { split; [intros _; right; eauto 8|reflexivity]. }
  split; [destruct err; discriminate|]. intros [H|(s' & o & e & H & K)]; [discriminate|]. injection H as <- _ _. intuition.
Qed.
Print Assumptions C100_silent.
(* The claim that it always says something is false: a blogc that dies without a word, as when it is
   killed, has the string NULL printed. *)
Theorem C100_undefined_exact r : get_variable_says r = UB <-> exists s out, r = CmdDone s out None /\ s <> 0 /\ s <> 78.
Proof.
  destruct r as [|s out err]; cbn; [split; [discriminate|intros (? & ? & H & _); discriminate]|].
  destruct (Nat.eqb_spec s 0) as [->|H0]; [split; [discriminate|intros (? & ? & H & K & _); congruence]|].
  destruct (Nat.eqb_spec s 78) as [->|H1]; cbn [negb]; [split; [discriminate|intros (? & ? & H & _ & K); congruence]|].
  destruct err; [split; [discriminate|intros (? & ? & H & _); discriminate]|]. split; [intros _; eauto 8|reflexivity].
Qed.
Print Assumptions C100_undefined_exact.
Theorem C100_refuted : exists y input, until_end (y_reads_out y) [] /\ until_end (y_reads_err y) [] /\ y_status y = 128 + 9 /\
  get_variable_says (snd (exec_command y input)) = UB.
Proof. exists (Answers true true true true true [] [] 137), (Some (B "a.txt")). repeat split; try constructor; vm_compute; reflexivity. Qed.
Print Assumptions C100_refuted.
