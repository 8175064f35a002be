(* Specification of escaping, and of texts without markup. *)
From Verif Require Import Base InlineSpec BlockSpec DocSpec.

Definition entities : list (bytes * ascii) :=
  [(B "&amp;", "&"%char); (B "&lt;", "<"%char); (B "&gt;", ">"%char); (B "&quot;", DQ); (B "&#x27;", SQ); (B "&#x2F;", "/"%char)].
Fixpoint prefix (p t : bytes) : bool :=
  match p, t with [], _ => true | c :: p, d :: t => (c == d) && prefix p t | _ :: _, [] => false end.
(* replaces the entities by their bytes; [skip] bytes belong to an entity already decoded *)
Fixpoint decode (skip : nat) (t : bytes) : bytes :=
  match t with
  | [] => []
  | c :: r =>
      match skip with
      | S k => decode k r
      | 0 => match find (fun p => prefix (fst p) t) entities with
             | Some (ent, d) => d :: decode (length ent - 1) r
             | None => c :: decode 0 r
             end
      end
  end.

(* a line that means itself: no markup byte, no two hyphens next to each other,
   no blank at its end *)
Definition plain_byte (c : ascii) : Prop := ~ In c (BSL :: B "*_`[").
Definition plain_line (l : bytes) : Prop :=
  text_line l /\ Forall plain_byte l /\ (forall x y, l <> x ++ B "--" ++ y) /\ (forall x, l <> x ++ [SP]).
Definition plain_para (exc : bool) (ls : list bytes) : Prop :=
  ls <> [] /\ Forall plain_line ls /\ para_first exc (hd [] ls).
(* paragraphs separated by blank lines *)
Fixpoint paras (e : bytes) (ps : list (list bytes)) : bytes :=
  match ps with
  | [] => []
  | [ls] => ended e ls
  | ls :: r => ended e ls ++ e ++ paras e r
  end.
(* the same without the ending of the last line, *)
Fixpoint open_paras (e : bytes) (ps : list (list bytes)) : bytes :=
  match ps with
  | [] => []
  | [ls] => joined e ls
  | ls :: r => ended e ls ++ e ++ open_paras e r
  end.
(* which has at least two bytes *)
Fixpoint long_last (exc : bool) (ps : list (list bytes)) : Prop :=
  match ps with
  | [] => True
  | [ls] => long (para_first exc (removelast (hd [] ls))) 2 ls
  | _ :: r => long_last exc r
  end.
