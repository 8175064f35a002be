(* Resources of a request, what the client gets and what is logged. *)
From Verif Require Import Base Handle ErrPrintSpec.

Definition thing_eq (a b : thing) : {a = b} + {a <> b}. Proof. decide equality. Defined.
Definition there (l : list thing) (x : thing) : bool := existsb (fun y => if thing_eq x y then true else false) l.
(* the things allocated, and whether the connection is open; None if something is used or freed
   that is not there, allocated again while it is there, or sent to a connection that is closed *)
Fixpoint keeps (l : list thing) (conn : bool) (t : list hact) : option (list thing * bool) :=
  match t with
  | [] => Some (l, conn)
  | HAlloc x :: t => if there l x then None else keeps (x :: l) conn t
  | HFree x :: t => if there l x then keeps (remove thing_eq x l) conn t else None
  | HUse x :: t => if there l x then keeps l conn t else None
  | HSend _ :: t => if conn then keeps l conn t else None
  | HLog _ _ :: t => keeps l conn t
  | HClose :: t => if conn then keeps l false t else None
  end.
Fixpoint received (t : list hact) : bytes :=
  match t with [] => [] | HSend b :: t => b ++ received t | _ :: t => received t end.
Fixpoint logged (t : list hact) : list (nat * bytes) :=
  match t with [] => [] | HLog s l :: t => (s, l) :: logged t | _ :: t => logged t end.
(* RFC 1945: the status code in the status line of a response, "HTTP/1.0 200 OK" *)
Definition status_code (b : bytes) : nat := fst (number_from 0 (skipn 9 b)).
