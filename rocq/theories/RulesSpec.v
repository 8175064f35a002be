(* Specification for P_Rules.v: times of files, and rule arguments. Independent of
   the model of rules.c. *)
From Verif Require Import Base.
From Coq Require Import ZArith.

(* [a] is not later than [b]: seconds first, then nanoseconds *)
Definition not_later (a b : Z * Z) : Prop := (fst a < fst b \/ fst a = fst b /\ snd a <= snd b)%Z.

(* "k1=v1,k2=v2,...": a key has no '=', a value no ',' *)
Inductive arguments : bytes -> list (bytes * bytes) -> Prop :=
| A_one k v : ~ In "="%char k -> ~ In ","%char v -> arguments (k ++ B "=" ++ v) [(k, v)]
| A_more k v s l : ~ In "="%char k -> ~ In ","%char v -> arguments s l ->
    arguments (k ++ B "=" ++ v ++ B "," ++ s) ((k, v) :: l).

(* the order of a listing: by date if the posts are to be sorted, else as they are
   listed in the blogcfile; ascending or descending *)
From Verif Require Import Trie LoaderSpec Datetime.
From Coq Require Import Permutation Sorting.Sorted.
Definition ordered (seconds : tm -> Z) (sort ascending : bool) (ps qs : list (trie bytes)) : Prop :=
  if sort then
    exists ss, Permutation ps ss /\ Forall2 same_post ss qs /\
      (forall z, filter (at_time seconds z) ss = filter (at_time seconds z) ps) /\
      StronglySorted (fun a b => exists x y, dated seconds a x /\ dated seconds b y /\ if ascending then (x <= y)%Z else (y <= x)%Z) ss
  else qs = if ascending then ps else rev ps.
(* a setting that is on; the order ASC *)
Definition on (v : option bytes) : Prop :=
  exists x, v = Some x /\ In (map upper_of x) [B "1"; B "Y"; B "YES"; B "TRUE"; B "ON"].
Definition asc (v : option bytes) : Prop := exists x, v = Some x /\ map upper_of x = B "ASC".
