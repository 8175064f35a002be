(* What a listing of posts is. *)
From Coq Require Import ZArith Permutation Sorting.Sorted.
From Verif Require Import Base Trie Datetime BlockSpec.

Definition path_separator (c : ascii) : Prop := c = "/"%char \/ c = BSL.
(* [f] is [name] below some directory, followed by an extension or without a dot *)
Definition file_name (f name : bytes) : Prop :=
  exists dir ext, f = dir ++ name ++ ext /\
    (dir = [] \/ exists d c, dir = d ++ [c] /\ path_separator c) /\
    Forall (fun c => ~ path_separator c) (name ++ ext) /\
    ((ext = [] /\ ~ In "."%char name) \/ exists e, ext = "."%char :: e /\ ~ In "."%char e).

(* [t] is one of the space-separated items of [tags] *)
Definition has_tag (tags t : bytes) : Prop :=
  t <> [] /\ ~ In SP t /\ exists a b, tags = a ++ t ++ b /\
    (a = [] \/ exists a', a = a' ++ [SP]) /\ (b = [] \/ exists b', b = SP :: b').
Definition tagged (t : bytes) (p : trie bytes) : Prop := exists tags, trie_lookup p (B "TAGS") = Some tags /\ has_tag tags t.
(* the posts a FILTER_TAG setting keeps *)
Definition kept_by (filter_tag : option bytes) (p : trie bytes) : Prop :=
  match filter_tag with None => True | Some t => tagged t p end.

(* [l] cut into pieces of [n] (the last one may be shorter) *)
Fixpoint chop {A} (fuel n : nat) (l : list A) : list (list A) :=
  match fuel, l with
  | S fuel, _ :: _ => firstn n l :: chop fuel n (skipn n l)
  | _, _ => []
  end.
Definition pages {A} (n : nat) (l : list A) : list (list A) := chop (length l) n l.

(* a number written in decimal, and one that can be read as a long *)
Definition written (z : Z) (s : bytes) : Prop :=
  exists n ds, decimal n ds /\ ((z = Z.of_nat n /\ s = ds) \/ (z < 0 /\ z = - Z.of_nat n /\ s = "-"%char :: ds))%Z.
Definition long_int (s : bytes) (z : Z) : Prop := written z s /\ (- 2 ^ 63 <= z < 2 ^ 63)%Z.

(* a positive number as it is printed *)
Definition numeral (z : Z) (s : bytes) : Prop := (1 <= z)%Z /\ decimal (Z.to_nat z) s /\ hd NUL s <> "0"%char.

(* options that are on *)
Definition upper_of (c : ascii) : ascii := if is_lower c then ascii_of_N (nb c - 32) else c.
Definition enabled (conf : trie bytes) (k : bytes) : Prop :=
  exists v, trie_lookup conf k = Some v /\ In (map upper_of v) [B "1"; B "Y"; B "YES"; B "TRUE"; B "ON"].

(* [m] is what is left of [l] when only what satisfies [P] is kept *)
Inductive picked {A} (P : A -> Prop) : list A -> list A -> Prop :=
| P_nil : picked P [] []
| P_keep x l m : P x -> picked P l m -> picked P (x :: l) (x :: m)
| P_drop x l m : ~ P x -> picked P l m -> picked P (x :: l) m.

Section Dates.
Variable seconds : tm -> Z.     (* the time_t of a date *)
Definition time_of (p : trie bytes) : option Z :=
  match trie_lookup p (B "DATE") with
  | Some d => match dt_parse d with Datatypes.inl t => Some (seconds t) | Datatypes.inr _ => None end
  | None => None
  end.
(* the same variables; lowercase names cannot be used in templates *)
Definition same_post (p q : trie bytes) : Prop :=
  forall k, no_nul k -> k <> B "c" -> trie_lookup q k = trie_lookup p k.
(* [p] is dated [z] seconds after the epoch *)
Definition dated (p : trie bytes) (z : Z) : Prop := time_of p = Some z.


(* [qs] is [ps] as FILTER_SORT and FILTER_REVERSE ask for: in the given order,
   reversed, or sorted by date, posts of the same date keeping their order *)
(* no two posts are 2^31 seconds (68 years) apart or more *)
Definition within_68_years (ps : list (trie bytes)) : Prop := forall p q x y, In p ps -> In q ps ->
  dated p x -> dated q y -> (x - y < 2 ^ 31)%Z.
Definition before (reverse : bool) (a b : trie bytes) : Prop :=
  exists x y, dated a x /\ dated b y /\ if reverse then (x <= y)%Z else (y <= x)%Z.
Definition at_time (z : Z) (p : trie bytes) : bool :=
  match time_of p with Some x => Z.eqb x z | None => false end.
Definition arranged (sort reverse : bool) (ps qs : list (trie bytes)) : Prop :=
  if sort then
    exists ss, Permutation ps ss /\ StronglySorted (before reverse) ss /\
      (forall z, filter (at_time z) ss = filter (at_time z) ps) /\ Forall2 same_post ss qs
  else qs = if reverse then rev ps else ps.
End Dates.

(* all posts have a date, or none has *)
Definition has_date (p : trie bytes) : Prop := trie_lookup p (B "DATE") <> None.
Definition uniform (ps : list (trie bytes)) : Prop := Forall has_date ps \/ Forall (fun p => ~ has_date p) ps.

(* the value [k] gets: the one given, or else its former value *)
Definition now {A} (new old : option A) : option A := match new with Some _ => new | None => old end.
Definition var_of (p : option (trie bytes)) (k : bytes) : option bytes :=
  match p with Some p => trie_lookup p k | None => None end.
Definition first_of {A} (l : list A) : option A := match l with x :: _ => Some x | [] => None end.
Definition last_of {A} (l : list A) : option A := first_of (rev l).

(* what a listing adds to the configuration *)
Definition listing_vars : list bytes :=
  [B "DATE_FIRST"; B "FILENAME_FIRST"; B "DATE_LAST"; B "FILENAME_LAST"].
Definition page_vars : list bytes :=
  [B "CURRENT_PAGE"; B "PREVIOUS_PAGE"; B "NEXT_PAGE"; B "FIRST_PAGE"; B "LAST_PAGE"].
Definition first_last_set (conf : trie bytes) (rv : list (trie bytes)) (conf' : trie bytes) : Prop :=
  trie_lookup conf' (B "DATE_FIRST") = now (var_of (first_of rv) (B "DATE")) (trie_lookup conf (B "DATE_FIRST")) /\
  trie_lookup conf' (B "FILENAME_FIRST") = now (var_of (first_of rv) (B "FILENAME")) (trie_lookup conf (B "FILENAME_FIRST")) /\
  trie_lookup conf' (B "DATE_LAST") = now (var_of (last_of rv) (B "DATE")) (trie_lookup conf (B "DATE_LAST")) /\
  trie_lookup conf' (B "FILENAME_LAST") = now (var_of (last_of rv) (B "FILENAME")) (trie_lookup conf (B "FILENAME_LAST")).
(* the number of posts on a page, 10 unless set *)
Definition per_page_of (conf : trie bytes) (n : Z) : Prop :=
  match trie_lookup conf (B "FILTER_PER_PAGE") with None => n = 10%Z | Some s => long_int s n end.
(* what a condition sets *)
Definition opt_if {A} (b : bool) (x : A) (old : option A) : option A := if b then Some x else old.
