(* What a table of contents is: nested lists (man/blogc-toctree.7.ronn). *)
From Verif Require Import Base Toctree.

Inductive entry : Type := EOpen | EClose | EItem (h : header).

(* nesting depth after the entries, if no list is closed that is not open *)
Fixpoint depth_after (d : nat) (l : list entry) : option nat :=
  match l with
  | [] => Some d
  | EOpen :: r => depth_after (S d) r
  | EClose :: r => match d with 0 => None | S d => depth_after d r end
  | EItem _ :: r => depth_after d r
  end.

(* the items with their depth *)
Fixpoint items_at (d : nat) (l : list entry) : list (nat * header) :=
  match l with
  | [] => []
  | EOpen :: r => items_at (S d) r
  | EClose :: r => items_at (d - 1) r
  | EItem h :: r => (d, h) :: items_at d r
  end.

(* one line each, four spaces per level *)
Definition item_text (h : header) : bytes :=
  match h_slug h, h_text h with
  | Some s, Some t => B "<a href=""#" ++ s ++ B """>" ++ t ++ B "</a>"
  | Some s, None => B "<a href=""#" ++ s ++ B """></a>"
  | None, Some t => t
  | None, None => []
  end.
Fixpoint text_at (e : bytes) (d : nat) (l : list entry) : bytes :=
  match l with
  | [] => []
  | EOpen :: r => repeat SP (4 * d) ++ B "<ul>" ++ e ++ text_at e (d + 1) r
  | EClose :: r => repeat SP (4 * (d - 1)) ++ B "</ul>" ++ e ++ text_at e (d - 1) r
  | EItem h :: r => repeat SP (4 * d) ++ B "<li>" ++ item_text h ++ B "</li>" ++ e ++ text_at e d r
  end.

(* no list is empty *)
Fixpoint no_empty_list (l : list entry) : Prop :=
  match l with
  | EOpen :: (EClose :: _) => False
  | _ :: r => no_empty_list r
  | [] => True
  end.

(* the outermost list is only closed at the end *)
Definition one_list (l : list entry) : Prop :=
  exists m, l = EOpen :: m ++ [EClose] /\
    forall m1 m2, m = m1 ++ m2 -> exists d, depth_after 1 m1 = Some (S d).

Definition lowest (hs : list header) (low : nat) : Prop :=
  (exists h, In h hs /\ h_level h = low) /\ forall h, In h hs -> low <= h_level h.
(* maxdepth: the number of levels shown, all of them if negative *)
Definition shown (low : nat) (maxdepth : Z) (h : header) : bool :=
  if (maxdepth <? 0)%Z then true else (Z.of_nat (h_level h) <? Z.of_nat low + maxdepth)%Z.
