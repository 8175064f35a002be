(* What blogc -d says about a template, item by item as they are written in it. *)
From Verif Require Import Base Utils TemplateSpec.

(* the capital letter of a small one *)
Definition capital (c : ascii) : ascii := if is_lower c then ascii_of_nat (nat_of_ascii c - 32) else c.
Definition told (t : bytes) : bytes := B "DEBUG: <TEMPLATE " ++ t ++ B ">" ++ [LF].
(* the record of an item; [t'] is what is left of its text *)
Definition says (i : item) (t' : bytes) : bytes :=
  match i with
  | IText _ => told (B "CONTENT: `" ++ t' ++ B "`")
  | IVar _ v _ => told (B "VARIABLE: " ++ v)
  | ITag _ ty _ name o operand _ _ =>
      told (map capital (keyword ty) ++
        match name with Some v => B ": " ++ v | None => [] end ++
        match operand with Some w => B " " ++ o ++ B " " ++ w | None => [] end)
  end.
(* the record of an item of a template: cleaners can have taken blanks from the ends of a text *)
Definition reported (i : item) (r : bytes) : Prop :=
  match i with
  | IText t => exists p t' q, t = p ++ t' ++ q /\ forallb isspace p = true /\ forallb isspace q = true /\ r = says i t'
  | _ => r = says i []
  end.
(* the record when there are no cleaners *)
Definition said (i : item) : bytes := match i with IText t => says i t | _ => says i [] end.
Definition no_cleaners (l : list item) : Prop :=
  Forall (fun i => match i with ITag ld _ _ _ _ _ _ rd => ld = false /\ rd = false | _ => True end) l.
