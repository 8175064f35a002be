(* What a command does with its input, however that arrives, and which commands
   blogc-make can run. *)
From Verif Require Import Base Pipes.
#[local] Open Scope nat_scope.

(* with this input it may write this output and these errors, and end with this code *)
Inductive runs : child -> bytes -> bytes -> bytes -> nat -> Prop :=
| R_exit n i : runs (Exit n) i [] [] n
| R_read n k a i o e x : a <> [] -> runs (k a) i o e x -> runs (Read n k) (a ++ i) o e x
| R_eof n k o e x : runs (k []) [] o e x -> runs (Read n k) [] o e x
| R_out b k i o e x : runs k i o e x -> runs (Out b k) i (b ++ o) e x
| R_err b k i o e x : runs k i o e x -> runs (Err b k) i o (b ++ e) x.

(* it may end without having read all of its input *)
Inductive leaves : child -> bytes -> Prop :=
| L_exit n i : i <> [] -> leaves (Exit n) i
| L_read n k a i : a <> [] -> leaves (k a) i -> leaves (Read n k) (a ++ i)
| L_out b k i : leaves k i -> leaves (Out b k) i
| L_err b k i : leaves k i -> leaves (Err b k) i.

(* it never writes more errors than this *)
Fixpoint few_errors (m : nat) (c : child) : Prop :=
  match c with
  | Exit _ => True
  | Read _ k => forall b, few_errors m (k b)
  | Out _ k => few_errors m k
  | Err b k => length b <= m /\ few_errors (m - length b) k
  end.
(* it writes nothing before it has seen the end of its input *)
Fixpoint reads_first (c : child) : Prop :=
  match c with
  | Exit _ => True
  | Read _ k => forall b, b <> [] -> reads_first (k b)
  | Out _ _ | Err _ _ => False
  end.
(* blogc-make has come to an end *)
Definition returned (s : state) : Prop := exists n, st_parent s = PDone n.
Definition killed (s : state) : Prop := st_parent s = PKilled.
