(* How a reader of the terminal takes apart what is printed of an error. *)
From Verif Require Import Base.

(* the text up to the first [c], and what follows it *)
Fixpoint cut (c : ascii) (s : bytes) : bytes * bytes :=
  match s with
  | [] => ([], [])
  | x :: r => if x == c then ([], r) else let (a, b) := cut c r in (x :: a, b)
  end.
(* the part before a colon; the blank after the colon is skipped *)
Definition field (s : bytes) : bytes * bytes := let (a, b) := cut ":"%char s in (a, tl b).
(* program, severity, component and text, without the newline at the end *)
Definition report (s : bytes) : bytes * bytes * bytes * bytes :=
  let (program, s1) := field s in let (severity, s2) := field s1 in let (component, s3) := field s2 in
  (program, severity, component, removelast s3).

(* the number at the start of a text, and what follows it *)
Fixpoint number_from (n : nat) (s : bytes) : nat * bytes :=
  match s with
  | c :: r => if is_digit c then number_from (n * 10 + (N.to_nat (nb c) - 48)) r else (n, s)
  | [] => (n, [])
  end.
(* line, position and the quoted line of the second line of a text *)
Definition place (t : bytes) : nat * nat * bytes :=
  let (_, second) := cut LF t in
  let (line, s1) := number_from 0 (skipn 25 second) in      (* "Error occurred near line " *)
  let (position, s2) := number_from 0 (skipn 11 s1) in      (* ", position " *)
  (line, position, skipn 2 s2).
