(* Model of bm_exec_command, src/blogc-make/exec.c 76-208: blogc-make and the command
   it runs, connected by three pipes, as a transition system. pipe, fork and read do not
   fail, and execv does not. The kernel moves any part of what is written or read that
   fits; that writes of up to PIPE_BUF bytes are not split is not modelled. A signal that
   would make a write shorter, which 150-159 does not notice, is not modelled either. *)
From Verif Require Import Base.
#[local] Open Scope nat_scope.

(* the command: any program that ends once it gets what it waits for. It reads at most so
   many bytes, and gets none only at the end of its input. *)
Inductive child : Type :=
| Exit (code : nat)
| Read (n : nat) (k : bytes -> child)
| Out (b : bytes) (k : child)
| Err (b : bytes) (k : child).
Inductive running : Type := Run (c : child) | Gone (code : nat).

(* where blogc-make is: writing its input, 149-159; reading the output to its end,
   164-184; reading the errors, 186-203; waiting, 205-206; or it returned, or SIGPIPE
   ended it *)
Inductive parent : Type := PWrite (rest : bytes) | POut | PErr | PWait | PDone (code : nat) | PKilled.

Record state : Type := State
  { st_parent : parent; st_child : running;
    st_in : bytes; st_out : bytes; st_err : bytes;              (* what is in the pipes *)
    st_output : bytes; st_error : bytes }.                      (* what was read: *output and *error *)

Section Pipes.
Variable cap : nat.                                             (* the capacity of a pipe *)

Inductive step : state -> state -> Prop :=
(* the parent *)
| S_write a r c i o e x y : a <> [] -> length i + length a <= cap ->
    step (State (PWrite (a ++ r)) (Run c) i o e x y) (State (PWrite r) (Run c) (i ++ a) o e x y)
| S_sigpipe a r n i o e x y :                                   (* nobody will read it *)
    step (State (PWrite (a :: r)) (Gone n) i o e x y) (State PKilled (Gone n) i o e x y)
| S_close c i o e x y : step (State (PWrite []) c i o e x y) (State POut c i o e x y)
| S_out c i a o e x y : a <> [] -> step (State POut c i (a ++ o) e x y) (State POut c i o e (x ++ a) y)
| S_out_end n i e x y : step (State POut (Gone n) i [] e x y) (State PErr (Gone n) i [] e x y)
| S_err c i o a e x y : a <> [] -> step (State PErr c i o (a ++ e) x y) (State PErr c i o e x (y ++ a))
| S_err_end n i o x y : step (State PErr (Gone n) i o [] x y) (State PWait (Gone n) i o [] x y)
| S_wait n i o e x y : step (State PWait (Gone n) i o e x y) (State (PDone n) (Gone n) i o e x y)
(* the child *)
| S_read p n k a i o e x y : a <> [] -> length a <= Nat.max 1 n ->
    step (State p (Run (Read n k)) (a ++ i) o e x y) (State p (Run (k a)) i o e x y)
| S_eof p n k o e x y : (forall r, p <> PWrite r) ->
    step (State p (Run (Read n k)) [] o e x y) (State p (Run (k [])) [] o e x y)
| S_put p a b k i o e x y : a <> [] -> length o + length a <= cap ->
    step (State p (Run (Out (a ++ b) k)) i o e x y) (State p (Run (Out b k)) i (o ++ a) e x y)
| S_put_end p k i o e x y : step (State p (Run (Out [] k)) i o e x y) (State p (Run k) i o e x y)
| S_complain p a b k i o e x y : a <> [] -> length e + length a <= cap ->
    step (State p (Run (Err (a ++ b) k)) i o e x y) (State p (Run (Err b k)) i o (e ++ a) x y)
| S_complain_end p k i o e x y : step (State p (Run (Err [] k)) i o e x y) (State p (Run k) i o e x y)
| S_exit p n i o e x y : step (State p (Run (Exit n)) i o e x y) (State p (Gone n) i o e x y).

Inductive steps : state -> state -> Prop :=
| Steps_refl s : steps s s
| Steps_step s t u : steps s t -> step t u -> steps s u.
End Pipes.

(* after fork; input == NULL is like no input *)
Definition start (input : bytes) (c : child) : state := State (PWrite input) (Run c) [] [] [] [] [].
