(* The command line of blogc-runserver: man/blogc-runserver.1.ronn and its help.
   Independent of the model of main.c. *)
From Verif Require Import Base BlockSpec.

Inductive item : Type := I_host (h : bytes) | I_port (p : bytes) | I_threads (n : nat) | I_root (d : bytes).
Definition dashed (a : bytes) : Prop := exists s, a = "-"%char :: s.
(* an option and its value are two words, or one *)
Inductive option_words (c : ascii) (v : bytes) : list bytes -> Prop :=
| OW_two : option_words c v [["-"%char; c]; v]
| OW_one : v <> [] -> option_words c v ["-"%char :: c :: v].
Inductive spelled : item -> list bytes -> Prop :=
| Sp_host h w : option_words "t" h w -> spelled (I_host h) w
| Sp_port p w : option_words "p" p w -> spelled (I_port p) w
| Sp_threads n s w : decimal n s -> option_words "m" s w -> spelled (I_threads n) w
| Sp_root d : ~ dashed d -> spelled (I_root d) [d].
Inductive line : list item -> list bytes -> Prop :=
| L_nil : line [] []
| L_cons i l a r : spelled i a -> line l r -> line (i :: l) (a ++ r).

(* the last option of a kind counts *)
Definition last_of {A} (f : item -> option A) (l : list item) : option A :=
  fold_left (fun acc i => match f i with Some v => Some v | None => acc end) l None.
Definition host_of (l : list item) := last_of (fun i => match i with I_host h => Some h | _ => None end) l.
Definition port_of (l : list item) := last_of (fun i => match i with I_port h => Some h | _ => None end) l.
Definition threads_of (l : list item) : nat :=
  match last_of (fun i => match i with I_threads h => Some h | _ => None end) l with Some n => n | None => 20 end.
Definition roots (l : list item) : list bytes := flat_map (fun i => match i with I_root d => [d] | _ => [] end) l.
Definition first_some (a b : option bytes) (c : bytes) : bytes :=
  match a, b with Some x, _ => x | None, Some x => x | None, None => c end.
