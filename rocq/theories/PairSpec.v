(* Texts whose line endings have two bytes. *)
From Verif Require Import Base BlockSpec.

(* every newline byte of the text belongs to a line ending [x y] *)
Inductive paired (x y : ascii) : bytes -> Prop :=
| Pr_nil : paired x y []
| Pr_byte c r : ~ newline_byte c -> paired x y r -> paired x y (c :: r)
| Pr_end r : paired x y r -> paired x y (x :: y :: r).
(* CR LF everywhere, or LF CR everywhere *)
Definition two_byte_ends (s : bytes) : Prop := paired CR LF s \/ paired LF CR s.
