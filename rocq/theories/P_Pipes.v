(* C51: blogc-make's exchange with the command it runs (src/blogc-make/exec.c 76-208). *)
From Verif Require Import Base Pipes PipesSpec.
From Coq Require Import Lia PeanoNat.
#[local] Open Scope nat_scope.

Section Facts.
Variable cap : nat.

(* ------------------------------------------------------------------ every run ends *)

Definition todo (p : parent) : nat :=
  match p with PWrite r => 2 * length r + 5 | POut => 4 | PErr => 3 | PWait => 2 | PDone _ => 1 | PKilled => 0 end.
Definition mass (s : state) : nat :=
  todo (st_parent s) + length (st_in s) + length (st_out s) + length (st_err s).
Definition goes_down (s : state) : Prop := Acc (fun u t => step cap t u) s.

Lemma nonempty_length (a : bytes) : a <> [] -> 1 <= length a.
Proof. destruct a; [ congruence | simpl; lia ]. Qed.

Ltac len := unfold mass in *; cbn [st_parent st_in st_out st_err todo] in *; rewrite ?app_length in *;
  repeat match goal with H : ?a <> [] |- _ => apply nonempty_length in H end; simpl in *; lia.

Lemma gone_ends : forall m s, mass s <= m -> (exists n, st_child s = Gone n) -> goes_down s.
Proof.
  induction m as [| m IH]; intros s L G; constructor; intros t S; destruct G as [n G].
  - exfalso. inv S; try discriminate G; len.
  - inv S; try discriminate G; apply IH; try (eexists; exact G); try (eexists; reflexivity); len.
Qed.

Lemma run_ends : forall c s, st_child s = Run c -> goes_down s.
Proof.
  induction c as [code | n k IH | b k IH | b k IH].
  - enough (E : forall m s, mass s <= m -> st_child s = Run (Exit code) -> goes_down s) by (intros s; apply (E (mass s)); lia).
    induction m as [| m IHm]; intros s L G; constructor; intros t S.
    + inv S; simpl in G; try discriminate G; try (exfalso; len); try (eapply gone_ends; [ reflexivity | eexists; reflexivity ]).
    + inv S; simpl in G; try discriminate G; try (apply IHm; [ len | simpl; congruence ]);
        try (eapply gone_ends; [ reflexivity | eexists; reflexivity ]).
  - enough (E : forall m s, mass s <= m -> st_child s = Run (Read n k) -> goes_down s) by (intros s; apply (E (mass s)); lia).
    induction m as [| m IHm]; intros s L G; constructor; intros t S.
    + inv S; simpl in G; try discriminate G; try (exfalso; len); inv G; eapply IH; reflexivity.
    + inv S; simpl in G; try discriminate G; try (apply IHm; [ len | simpl; congruence ]); inv G; eapply IH; reflexivity.
  - enough (E : forall m b s, 2 * length b + mass s <= m -> st_child s = Run (Out b k) -> goes_down s)
      by (intros s; apply (E (2 * length b + mass s)); lia).
    clear b. induction m as [| m IHm]; intros b s L G; constructor; intros t S.
    + inv S; simpl in G; try discriminate G; try (exfalso; len); inv G; try (exfalso; len); eapply IH; reflexivity.
    + inv S; simpl in G; try discriminate G; inv G; try (eapply IHm; [| reflexivity ]; len); eapply IH; reflexivity.
  - enough (E : forall m b s, 2 * length b + mass s <= m -> st_child s = Run (Err b k) -> goes_down s)
      by (intros s; apply (E (2 * length b + mass s)); lia).
    clear b. induction m as [| m IHm]; intros b s L G; constructor; intros t S.
    + inv S; simpl in G; try discriminate G; try (exfalso; len); inv G; try (exfalso; len); eapply IH; reflexivity.
    + inv S; simpl in G; try discriminate G; inv G; try (eapply IHm; [| reflexivity ]; len); eapply IH; reflexivity.
Qed.

Lemma ends s : goes_down s.
Proof.
  destruct (st_child s) as [c | n] eqn:G; [ exact (run_ends G) |].
  eapply gone_ends; [ reflexivity | eauto ].
Qed.

(* ------------------------------------------------------------ what has been collected *)

Definition unwritten (p : parent) : bytes := match p with PWrite r => r | _ => [] end.
Section Kept.
Variables (input : bytes) (c0 : child).

(* whatever the command still does completes something it does with the whole input *)
Definition tracks (s : state) : Prop :=
  match st_child s with
  | Run c =>
      st_parent s <> PKilled /\
      (forall o e x, runs c (st_in s ++ unwritten (st_parent s)) o e x ->
         runs c0 input (st_output s ++ st_out s ++ o) (st_error s ++ st_err s ++ e) x) /\
      (leaves c (st_in s ++ unwritten (st_parent s)) -> leaves c0 input)
  | Gone n =>
      runs c0 input (st_output s ++ st_out s) (st_error s ++ st_err s) n /\
      (unwritten (st_parent s) <> [] \/ st_parent s = PKilled -> leaves c0 input)
  end.

Lemma leaves_none c : ~ leaves c [].
Proof.
  intros L. remember [] as i eqn:E. induction L; try tauto.
  destruct a; [ congruence | discriminate E ].
Qed.

Lemma tracks_step s t : step cap s t -> tracks s -> tracks t.
Proof.
  unfold tracks. intros S H.
  assert (X : forall u v u' v' n, runs c0 input u v n -> u = u' -> v = v' -> runs c0 input u' v' n) by (intros; subst; assumption).
  inv S; cbn [st_parent st_child st_in st_out st_err st_output st_error unwritten] in *.
  - destruct H as (K & H & L). split; [ congruence |]. rewrite <- !app_assoc. auto.
  - destruct H as (H & L). split; [ exact H |]. intros _. apply L. left. discriminate.
  - destruct c as [c | n]; [ destruct H as (K & H & L); split; [ congruence |]; auto |].
    destruct H as (H & L). split; [ exact H |]. intros [D | D]; [ now destruct D | discriminate D ].
  - destruct c as [c | n].
    + destruct H as (K & H & L). split; [ congruence |]. split; [| exact L ].
      intros u v w R. eapply X; [ exact (H u v w R) | now rewrite <- !app_assoc | reflexivity ].
    + destruct H as (H & L). split; [| exact L ].
      eapply X; [ exact H | now rewrite <- !app_assoc | reflexivity ].
  - destruct H as (H & L). split; [ exact H |]. intros [D | D]; [ now destruct D | discriminate D ].
  - destruct c as [c | n].
    + destruct H as (K & H & L). split; [ congruence |]. split; [| exact L ].
      intros u v w R. eapply X; [ exact (H u v w R) | reflexivity | now rewrite <- !app_assoc ].
    + destruct H as (H & L). split; [| exact L ].
      eapply X; [ exact H | reflexivity | now rewrite <- !app_assoc ].
  - destruct H as (H & L). split; [ exact H |]. intros [D | D]; [ now destruct D | discriminate D ].
  - destruct H as (H & L). split; [ exact H |]. intros [D | D]; [ now destruct D | discriminate D ].
  - destruct H as (K & H & L). split; [ exact K |]. rewrite <- !app_assoc in *. split.
    + intros u v w R. apply H. now apply R_read.
    + intros R. apply L. now apply L_read.
  - destruct H as (K & H & L). split; [ exact K |].
    assert (E : unwritten p = []) by (destruct p; try reflexivity; match goal with N : forall r, _ <> _ |- _ => now destruct (N rest) end).
    rewrite E in *. split.
    + intros u v w R. apply H. now apply R_eof.
    + intros R. destruct (leaves_none R).
  - destruct H as (K & H & L). split; [ exact K |]. split.
    + intros u v w R.
      assert (Q : runs (Out (a ++ b) k) (i ++ unwritten p) (a ++ u) v w)
        by (inv R; rewrite app_assoc; now apply R_out).
      eapply X; [ exact (H _ _ _ Q) | now rewrite <- !app_assoc | reflexivity ].
    + intros R. inv R. apply L. now apply L_out.
  - destruct H as (K & H & L). split; [ exact K |]. split.
    + intros u v w R. apply (H u v w). now apply (@R_out []).
    + intros R. apply L. now apply L_out.
  - destruct H as (K & H & L). split; [ exact K |]. split.
    + intros u v w R.
      assert (Q : runs (Err (a ++ b) k) (i ++ unwritten p) u (a ++ v) w)
        by (inv R; rewrite app_assoc; now apply R_err).
      eapply X; [ exact (H _ _ _ Q) | reflexivity | now rewrite <- !app_assoc ].
    + intros R. inv R. apply L. now apply L_err.
  - destruct H as (K & H & L). split; [ exact K |]. split.
    + intros u v w R. apply (H u v w). now apply (@R_err []).
    + intros R. apply L. now apply L_err.
  - destruct H as (K & H & L). split.
    + eapply X; [ exact (H _ _ _ (R_exit n _)) | now rewrite app_nil_r | now rewrite app_nil_r ].
    + intros [D | D]; [| congruence ]. apply L. apply L_exit. intros E. apply app_eq_nil in E. tauto.
Qed.

Lemma tracks_steps s t : steps cap s t -> tracks s -> tracks t.
Proof. induction 1; eauto using tracks_step. Qed.
Lemma tracks_start : tracks (start input c0).
Proof. unfold tracks, start; simpl. split; [ congruence |]. auto. Qed.
End Kept.

(* ------------------------------------------------------------------ nobody is stuck *)

Definition room (s : state) : Prop :=
  (match st_parent s with
   | PWrite r => length (st_in s) + length r <= cap \/ match st_child s with Run c => reads_first c | Gone _ => True end
   | POut | PKilled => True
   | PErr | PWait | PDone _ => exists n, st_child s = Gone n
   end) /\
  match st_child s with
  | Run c => length (st_err s) <= cap /\ few_errors (cap - length (st_err s)) c
  | Gone _ => True
  end.

Lemma room_step s t : step cap s t -> room s -> room t.
Proof.
  unfold room. intros S [P Q].
  inv S; cbn [st_parent st_child st_in st_out st_err] in *; rewrite ?app_length in *;
    try (split; [ tauto | assumption ]).
  - split; [| assumption ]. destruct P as [P | P]; [ left; lia | now right ].
  - split; [ now exists n | exact I ].
  - destruct P as [n ->]. split; [ now exists n | exact I ].
  - destruct Q as [Q R]. split; [| now split ].
    destruct p; try exact P; try (destruct P as [? P]; discriminate P).
    destruct P as [P | P]; [ left; lia | right; simpl in P; auto ].
  - destruct Q as [Q R]. split; [| now split ].
    destruct p; try exact P; try (destruct P as [? P]; discriminate P).
    match goal with N : forall r, _ <> _ |- _ => now destruct (N rest) end.
  - destruct Q as [Q R]. split; [| now split ].
    destruct p; try exact P; try (destruct P as [? P]; discriminate P).
  - destruct Q as [Q R]. split; [| now split ].
    destruct p; try exact P; try (destruct P as [? P]; discriminate P).
    destruct P as [P | P]; [ now left | destruct P ].
  - destruct Q as [Q (R & R')]. split.
    + destruct p; try exact P; try (destruct P as [? P]; discriminate P).
    + rewrite app_length in *. split; [ lia |]. split; [ lia |].
      now replace (cap - (length e + length a) - length b) with (cap - length e - (length a + length b)) by lia.
  - destruct Q as [Q (R & R')]. split.
    + destruct p; try exact P; try (destruct P as [? P]; discriminate P).
      destruct P as [P | P]; [ now left | destruct P ].
    + split; [ assumption |]. simpl in R'. now rewrite Nat.sub_0_r in R'.
  - split; [| exact I ]. destruct p; try exact P; try (destruct P as [? P]; discriminate P).
Qed.

Lemma room_steps s t : steps cap s t -> room s -> room t.
Proof. induction 1; eauto using room_step. Qed.

Lemma a_byte (l : bytes) : l <> [] -> exists a r, l = [a] ++ r.
Proof. destruct l as [| a r]; [ congruence | now exists a, r ]. Qed.
Lemma bytes_nil (l : bytes) : {l = []} + {l <> []}.
Proof. destruct l; [ now left | now right ]. Qed.

Lemma progress s : 1 <= cap -> room s -> returned s \/ killed s \/ exists t, step cap s t.
Proof.
  intros C [P Q]. destruct s as [p c i o e x y]. unfold returned, killed. cbn [st_parent st_child st_in st_out st_err] in *.
  destruct p as [r | | | | n |]; eauto; try (right; right).
  - destruct (bytes_nil r) as [-> | N]; [ eexists; apply S_close |].
    destruct (a_byte N) as (a & r' & ->). destruct c as [c | n]; [| eexists; apply S_sigpipe ].
    destruct (le_lt_dec (length i + length [a]) cap) as [L | L]; [ eexists; apply S_write; [ discriminate | exact L ] |].
    destruct P as [P | P]; [ rewrite app_length in P; simpl in P, L; lia |].
    destruct c as [n | n k | |]; try now destruct P.
    + eexists; apply S_exit.
    + assert (M : i <> []) by (intros ->; simpl in L; lia).
      destruct (a_byte M) as (u & i' & ->). eexists; apply S_read; [ discriminate | cbn [length]; lia ].
  - destruct c as [c | n].
    + destruct Q as [Q R]. destruct c as [n | n k | b k | b k].
      * eexists; apply S_exit.
      * destruct (bytes_nil i) as [-> | N]; [ eexists; apply S_eof; congruence |].
        destruct (a_byte N) as (u & i' & ->). eexists; apply S_read; [ discriminate | cbn [length]; lia ].
      * destruct (bytes_nil b) as [-> | N]; [ eexists; apply S_put_end |].
        destruct (bytes_nil o) as [-> | M].
        -- destruct (a_byte N) as (u & b' & ->). eexists; apply S_put; [ discriminate | simpl; lia ].
        -- destruct (a_byte M) as (u & o' & ->). eexists; apply S_out; discriminate.
      * destruct (bytes_nil b) as [-> | N]; [ eexists; apply S_complain_end |].
        destruct (a_byte N) as (u & b' & ->). destruct R as [R _]. rewrite app_length in R.
        eexists; apply S_complain; [ discriminate | simpl in *; lia ].
    + destruct (bytes_nil o) as [-> | M]; [ eexists; apply S_out_end |].
      destruct (a_byte M) as (u & o' & ->). eexists; apply S_out; discriminate.
  - destruct P as [n ->]. destruct (bytes_nil e) as [-> | M]; [ eexists; apply S_err_end |].
    destruct (a_byte M) as (u & o' & ->). eexists; apply S_err; discriminate.
  - destruct P as [n ->]. eexists; apply S_wait.
Qed.

(* the pipes are empty and the command is gone once blogc-make has read them to their end *)
Definition drained (s : state) : Prop :=
  match st_parent s with
  | PErr => st_out s = [] /\ exists n, st_child s = Gone n
  | PWait => st_out s = [] /\ st_err s = [] /\ exists n, st_child s = Gone n
  | PDone n => st_out s = [] /\ st_err s = [] /\ st_child s = Gone n
  | _ => True
  end.
Lemma drained_step s t : step cap s t -> drained s -> drained t.
Proof.
  unfold drained. intros S D. inv S; cbn [st_parent st_child st_in st_out st_err] in *; auto;
    try (destruct p; auto; exfalso; repeat match goal with
      | H : _ /\ _ |- _ => destruct H | H : exists _, _ |- _ => destruct H end; discriminate).
  - split; [ reflexivity | now exists n ].
  - split; [ tauto |]. split; [ reflexivity | now exists n ].
  - tauto.
Qed.
Lemma drained_steps s t : steps cap s t -> drained s -> drained t.
Proof. induction 1; eauto using drained_step. Qed.
End Facts.

(* ------------------------------------------------------------------------- C51 *)

(* When blogc-make returns from a command, it has all the command wrote, in order, and its
   code; it ends early only if the command left some of its input unread. *)
Theorem C51_collected cap input c s :
  steps cap (start input c) s ->
  (forall n, st_parent s = PDone n -> runs c input (st_output s) (st_error s) n) /\
  (killed s -> leaves c input).
Proof.
  intros S. pose proof (tracks_steps S (tracks_start input c)) as T.
  assert (D : drained s) by (eapply drained_steps; [ exact S | exact I ]).
  unfold tracks, drained, killed in *. split.
  - intros n E. rewrite E in *. destruct D as (D1 & D2 & D3). rewrite D3, D1, D2, !app_nil_r in T. apply T.
  - intros E. rewrite E in *. destruct (st_child s); [ now destruct T | apply T; now right ].
Qed.
Print Assumptions C51_collected.

(* No exchange goes on for ever: *)
Theorem C51_ends cap f : ~ forall n, step cap (f n) (f (S n)).
Proof.
  intros H. assert (A : forall s, Acc (fun u t => step cap t u) s -> forall n, s <> f n).
  { induction 1 as [s _ IH]. intros n ->. exact (IH _ (H n) (S n) eq_refl). }
  exact (A _ (ends cap (f 0)) 0 eq_refl).
Qed.
Print Assumptions C51_ends.

(* and it comes to a stop only when blogc-make returned or was ended, provided the command
   reads its input before it writes, or the input fits into the pipe, and its errors fit
   into the pipe. Missing: every other command, see C51_refuted. *)
Theorem C51_partial cap input c s :
  1 <= cap -> few_errors cap c -> length input <= cap \/ reads_first c ->
  steps cap (start input c) s ->
  (forall t, ~ step cap s t) ->
  returned s \/ (killed s /\ leaves c input).
Proof.
  intros C F R S E.
  assert (Q : room cap s).
  { eapply room_steps; [ exact S |]. unfold room, start; simpl. rewrite Nat.sub_0_r. split; [ exact R |]. split; [ lia | exact F ]. }
  destruct (progress C Q) as [H | [H | [t H]]]; [ now left | right | now destruct (E t) ].
  split; [ exact H |]. now apply (C51_collected S).
Qed.
Print Assumptions C51_partial.

(* a command that reads all of its input, in at most so many pieces, and goes on with it *)
Fixpoint slurp (m : nat) (acc : bytes) (k : bytes -> child) : child :=
  match m with
  | 0 => Exit 1
  | S m => Read 4096 (fun b => match b with [] => k acc | _ => slurp m (acc ++ b) k end)
  end.
Lemma slurp_errors e k : (forall b, few_errors e (k b)) -> forall m acc, few_errors e (slurp m acc k).
Proof. intros H. induction m as [| m IH]; intros acc; simpl; [ exact I |]. intros [| u b]; auto. Qed.
Lemma slurp_first k : forall m acc, reads_first (slurp m acc k).
Proof. induction m as [| m IH]; intros acc; simpl; [ exact I |]. intros [| u b] N; [ congruence | auto ]. Qed.
Lemma slurp_all k : forall m acc i, length i < m -> ~ leaves (slurp m acc k) i.
Proof.
  induction m as [| m IH]; intros acc i L H; [ lia |]. inv H. rewrite app_length in L.
  destruct a as [| u a]; [ congruence |]. eapply IH; [| eassumption ]. simpl in L. lia.
Qed.
Lemma slurp_runs k o e n : (forall b, runs (k b) [] o e n) -> forall m acc i, 1 < m -> runs (slurp m acc k) i o e n.
Proof.
  intros H [| [| m]] acc i L; try lia. simpl. destruct i as [| u i].
  - apply R_eof. apply H.
  - rewrite <- (app_nil_r (u :: i)). apply R_read; [ discriminate |]. simpl. apply R_eof. apply H.
Qed.
Definition ex_child : child := slurp 5 [] (fun b => Out (b ++ b) (Err (B "done") (Exit 3))).
Example C51_ex_first : few_errors 4 ex_child /\ reads_first ex_child.
Proof. split; [ apply slurp_errors; simpl; split; [ lia | exact I ] | apply slurp_first ]. Qed.
Example C51_ex_runs : runs ex_child (B "abc") (B "abcabc") (B "done") 3.
Proof.
  unfold ex_child, slurp. apply (@R_read _ _ (B "a") (B "bc")); [ discriminate |].
  apply (@R_read _ _ (B "bc") []); [ discriminate |]. apply R_eof. simpl.
  apply (@R_out (B "abcabc") _ _ []). apply (@R_err (B "done") _ _ _ []). apply R_exit.
Qed.
Example C51_ex_exchange :
  steps 2 (start (B "abc") (Read 9 (fun a => Read 9 (fun b => Read 9 (fun c => Out (a ++ b ++ c) (Exit 3))))))
    (State (PDone 3) (Gone 3) [] [] [] (B "abc") []).
Proof.
  eapply Steps_step; [| apply S_wait ]. eapply Steps_step; [| apply S_err_end ]. eapply Steps_step; [| apply S_out_end ].
  eapply Steps_step; [| apply (@S_out _ _ _ (B "bc") _ _ (B "a")); discriminate ]. simpl.
  eapply Steps_step; [| apply S_exit ]. eapply Steps_step; [| apply S_put_end ].
  eapply Steps_step; [| apply (@S_put _ _ (B "bc") [] _ _ []); [ discriminate | vm_compute; lia ] ].
  eapply Steps_step; [| apply (@S_out _ _ _ (B "a") _ _ []); discriminate ].
  eapply Steps_step; [| apply (@S_put _ _ (B "a") (B "bc") _ _ []); [ discriminate | vm_compute; lia ] ].
  eapply Steps_step; [| eapply (@S_eof _ _ 9 (fun c => Out (B "a" ++ B "bc" ++ c) (Exit 3))); congruence ].
  eapply Steps_step; [| eapply (@S_read _ _ 9 (fun b => Read 9 (fun c => Out (B "a" ++ b ++ c) (Exit 3))) (B "bc") []); [ discriminate | vm_compute; lia ] ].
  eapply Steps_step; [| eapply S_close ].
  eapply Steps_step; [| eapply (@S_write _ (B "c") [] _ (B "b")); [ discriminate | vm_compute; lia ] ].
  eapply Steps_step; [| eapply (@S_read _ _ 9 (fun a => Read 9 (fun b => Read 9 (fun c => Out (a ++ b ++ c) (Exit 3)))) (B "a") (B "b")); [ discriminate | vm_compute; lia ] ].
  eapply Steps_step; [| eapply (@S_write _ (B "ab") (B "c") _ []); [ discriminate | vm_compute; lia ] ].
  apply Steps_refl.
Qed.

(* Any other command can stop the exchange for ever: it waits for blogc-make to read what it
   writes, while blogc-make waits for it to read its input, or to close its output. *)
Definition stuck (cap : nat) (s : state) : Prop := ~ returned s /\ ~ killed s /\ forall t, ~ step cap s t.
Theorem C51_refuted cap : 1 <= cap ->
  (exists input c s, few_errors cap c /\ (exists o e n, runs c input o e n) /\ ~ leaves c input /\
     steps cap (start input c) s /\ stuck cap s) /\
  (exists c s, (exists o e n, runs c [] o e n) /\ steps cap (start [] c) s /\ stuck cap s).
Proof.
  intros C. set (full := repeat "x"%char cap).
  assert (L : length full = cap) by apply repeat_length.
  assert (F : full <> []) by (intros E; rewrite E in L; simpl in L; lia).
  assert (N : forall (a b : bytes) x, a <> [] -> a ++ b = [x] -> length a = 1 /\ b = []).
  { intros a b x N E. destruct a as [| u [| v a]]; [ congruence | | discriminate E ]. injection E as <- ->. auto. }
  clearbody full.
  assert (R : exists r, few_errors cap r /\ (forall i, runs r i [] [] 0) /\ forall i, length i <= S cap -> ~ leaves r i).
  { exists (slurp (cap + 2) [] (fun _ => Exit 0)). split; [ apply slurp_errors; simpl; auto |]. split.
    - intros i. apply slurp_runs; [ intros _; apply R_exit | lia ].
    - intros i Li. apply slurp_all. lia. }
  destruct R as (rest & R1 & R2 & R3).
  split.
  - exists (full ++ B "y"), (Out (full ++ B "z") rest), (State (PWrite (B "y")) (Run (Out (B "z") rest)) full full [] [] []).
    split; [ exact R1 |].
    split; [ exists ((full ++ B "z") ++ []), [], 0; apply R_out; apply R2 |].
    split; [ intros H; inv H; revert H3; apply R3; rewrite app_length; simpl; lia |].
    split.
    + eapply Steps_step; [ eapply Steps_step; [ apply Steps_refl |] |].
      * apply S_write; [ exact F | simpl; lia ].
      * apply S_put; [ exact F | simpl; lia ].
    + split; [ intros [n E]; discriminate E |]. split; [ discriminate |].
      intros t H. inv H.
      * match goal with X : ?a <> [], Y : ?a ++ _ = _ |- _ => destruct (N _ _ _ X Y) as [E _] end. simpl in *. lia.
      * match goal with X : ?a <> [], Y : ?a ++ _ = _ |- _ => destruct (N _ _ _ X Y) as [E _] end. simpl in *. lia.
  - exists (Err (full ++ B "z") (Exit 0)), (State POut (Run (Err (B "z") (Exit 0))) [] [] full [] []).
    split; [ exists [], ((full ++ B "z") ++ []), 0; apply R_err; apply R_exit |].
    split.
    + eapply Steps_step; [ eapply Steps_step; [ apply Steps_refl |] |].
      * apply S_close.
      * apply S_complain; [ exact F | simpl; lia ].
    + split; [ intros [n E]; discriminate E |]. split; [ discriminate |].
      intros t H. inv H.
      * destruct a; [ congruence | discriminate ].
      * match goal with X : ?a <> [], Y : ?a ++ _ = _ |- _ => destruct (N _ _ _ X Y) as [E _] end. simpl in *. lia.
Qed.
Print Assumptions C51_refuted.
