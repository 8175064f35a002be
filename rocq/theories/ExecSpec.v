(* Descriptors: which are open after a list of calls; using or closing one that is not open is wrong. *)
From Verif Require Import Base Exec.

Definition fd_eq (a b : fd) : {a = b} + {a <> b}. Proof. decide equality. Defined.
Definition is_open (l : list fd) (d : fd) : bool := existsb (fun x => if fd_eq x d then true else false) l.
Fixpoint opened_after (l : list fd) (tr : list call) : option (list fd) :=
  match tr with
  | [] => Some l
  | EPipe r w :: t => if is_open l r || is_open l w then None else opened_after (r :: w :: l) t
  | EClose d :: t => if is_open l d then opened_after (remove fd_eq d l) t else None
  | EWrite d _ :: t => if is_open l d then opened_after l t else None
  | ERead d :: t => if is_open l d then opened_after l t else None
  | EFork :: t => opened_after l t
  | EWait :: t => opened_after l t
  end.
(* what reading until the end gives: the pieces up to the first that is empty *)
Inductive until_end : list (option bytes) -> list bytes -> Prop :=
| U_end : until_end [] []
| U_empty r : until_end (Some [] :: r) []
| U_piece x r l : x <> [] -> until_end r l -> until_end (Some x :: r) (x :: l).
(* NULL for nothing *)
Definition or_null (l : list bytes) : option bytes := match l with [] => None | _ => Some (concat l) end.
