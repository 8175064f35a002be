(* What a file list means, written from man/blogc.1.ronn (-i): one path per line;
   blank lines and lines starting with # are ignored. *)
From Verif Require Import Base Utils.

Definition eol (c : ascii) : bool := (c == CR) || (c == LF).
Definition hb (c : ascii) : bool := (c == SP) || (c == TAB).

(* the lines of a text, without their terminators (CR LF makes an empty line more) *)
Fixpoint lines_from (l : bytes) (s : bytes) : list bytes :=
  match s with
  | [] => [l]
  | c :: r => if eol c then l :: lines_from [] r else lines_from (l ++ [c]) r
  end.
Definition lines (s : bytes) : list bytes := lines_from [] s.

(* not a blank line, not a comment *)
Fixpoint wanted (l : bytes) : bool :=
  match l with
  | [] => false
  | c :: r => if hb c then wanted r else negb (c == "#"%char)
  end.

Definition entries (s : bytes) : list bytes := map (fun l => strip (cstr l)) (filter wanted (lines s)).

(* the first byte of a line that is not a space or tab is VT or FF, which strip
   removes too, and something is left *)
Fixpoint odd_start (l : bytes) : bool :=
  match l with
  | [] => false
  | c :: r => if hb c then odd_start r
              else ((c == VT) || (c == FF)) && negb (beq (strip (cstr r)) [])
  end.
