(* Model of bc_slist_sort, src/common/sort.c 9-39. The list cells are never
   relinked, only their data fields are exchanged: the cells are numbered
   0..n-1, the NULL pointer is cell n, [l] holds the data fields. *)
From Verif Require Import Base.

Section Sort.
Variable A : Type.
Variable cmp : A -> A -> Z.

(* exchange the data of cells i and i+1, sort.c 27-29 *)
Definition swap_at (l : list A) (i : nat) (a b : A) : list A :=
  firstn i l ++ b :: a :: skipn (i + 2) l.

(* inner loop, sort.c 25-34. [i] is the cell lptr points at, [R] the cell of
   rptr. Dereferencing cell n is undefined. *)
Fixpoint pass (fuel : nat) (l : list A) (i R : nat) (swapped : bool) : res (list A * nat * bool) :=
  match fuel with
  | 0 => OutOfFuel
  | S fuel =>
      match nth_error l i with
      | None => UB                                   (* lptr->next with lptr NULL *)
      | Some a =>
          if Nat.eqb (i + 1) R then Ok (l, i, swapped)
          else match nth_error l (i + 1) with
               | None => UB                          (* lptr->next->data with next NULL *)
               | Some b =>
                   if (0 <? cmp a b)%Z then pass fuel (swap_at l i a b) (i + 1) R true
                   else pass fuel l (i + 1) R swapped
               end
      end
  end.

(* do ... while(swapped), sort.c 21-37 *)
Fixpoint sort_loop (fuel : nat) (l : list A) (R : nat) : res (list A) :=
  match fuel with
  | 0 => OutOfFuel
  | S fuel =>
      do (l', r', sw) <- pass (S (length l)) l 0 R false ;
      if sw : bool then sort_loop fuel l' r' else Ok l'
  end.

Definition slist_sort (l : list A) : res (list A) :=
  match l with
  | [] => Ok []
  | _ => sort_loop (length l) l (length l)           (* rptr = NULL *)
  end.
End Sort.
