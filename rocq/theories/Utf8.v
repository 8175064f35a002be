(* Model of src/common/utf8.c. *)
From Verif Require Import Base.

(* utf8d, utf8.c 18-38: 256 byte classes, then the transition table *)
Definition utf8d : list nat :=
  [
   0; 0; 0; 0; 0; 0; 0; 0; 0; 0; 0; 0; 0; 0; 0; 0;
   0; 0; 0; 0; 0; 0; 0; 0; 0; 0; 0; 0; 0; 0; 0; 0;
   0; 0; 0; 0; 0; 0; 0; 0; 0; 0; 0; 0; 0; 0; 0; 0;
   0; 0; 0; 0; 0; 0; 0; 0; 0; 0; 0; 0; 0; 0; 0; 0;
   0; 0; 0; 0; 0; 0; 0; 0; 0; 0; 0; 0; 0; 0; 0; 0;
   0; 0; 0; 0; 0; 0; 0; 0; 0; 0; 0; 0; 0; 0; 0; 0;
   0; 0; 0; 0; 0; 0; 0; 0; 0; 0; 0; 0; 0; 0; 0; 0;
   0; 0; 0; 0; 0; 0; 0; 0; 0; 0; 0; 0; 0; 0; 0; 0;
   1; 1; 1; 1; 1; 1; 1; 1; 1; 1; 1; 1; 1; 1; 1; 1;
   9; 9; 9; 9; 9; 9; 9; 9; 9; 9; 9; 9; 9; 9; 9; 9;
   7; 7; 7; 7; 7; 7; 7; 7; 7; 7; 7; 7; 7; 7; 7; 7;
   7; 7; 7; 7; 7; 7; 7; 7; 7; 7; 7; 7; 7; 7; 7; 7;
   8; 8; 2; 2; 2; 2; 2; 2; 2; 2; 2; 2; 2; 2; 2; 2;
   2; 2; 2; 2; 2; 2; 2; 2; 2; 2; 2; 2; 2; 2; 2; 2;
   10; 3; 3; 3; 3; 3; 3; 3; 3; 3; 3; 3; 3; 4; 3; 3;
   11; 6; 6; 6; 5; 8; 8; 8; 8; 8; 8; 8; 8; 8; 8; 8;
   0; 12; 24; 36; 60; 96; 84; 12; 12; 12; 48; 72; 12; 12; 12; 12;
   12; 12; 12; 12; 12; 12; 12; 12; 12; 0; 12; 12; 12; 12; 12; 0;
   12; 0; 12; 12; 12; 24; 12; 12; 12; 12; 12; 24; 12; 24; 12; 12;
   12; 12; 12; 12; 12; 12; 12; 24; 12; 12; 12; 12; 12; 24; 12; 12;
   12; 12; 12; 12; 12; 24; 12; 12; 12; 12; 12; 12; 12; 12; 12; 36;
   12; 36; 12; 12; 12; 36; 12; 12; 12; 12; 12; 36; 12; 36; 12; 12;
   12; 36; 12; 12; 12; 12; 12; 12; 12; 12; 12; 12].

(* utf8d[i], undefined outside the table *)
Definition utf8d_at (i : nat) : res nat :=
  match nth_error utf8d i with Some v => Ok v | None => UB end.

(* one iteration of the loop, utf8.c 46-47 *)
Definition utf8_step (state : nat) (b : ascii) : res nat :=
  do cls <- utf8d_at (nat_of_ascii b) ;
  utf8d_at (256 + state + cls).

Fixpoint utf8_run (state : nat) (s : bytes) : res nat :=
  match s with
  | [] => Ok state
  | b :: r => do st <- utf8_step state b ; utf8_run st r
  end.

(* bc_utf8_validate, utf8.c 41-50 (and bc_utf8_validate_str, 53-57) *)
Definition utf8_validate (s : bytes) : res bool :=
  do st <- utf8_run 0 s ; Ok (Nat.eqb st 0).

(* bc_utf8_skip_bom, utf8.c 60-70 *)
Definition BOM : bytes := ["239"%char; "187"%char; "191"%char].
Definition utf8_skip_bom (s : bytes) : nat :=
  match s with
  | a :: b :: c :: _ =>
      if (a == "239"%char) && (b == "187"%char) && (c == "191"%char) then 3 else 0
  | _ => 0
  end.
