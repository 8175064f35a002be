(* Model of bc_trie_t, src/common/utils.c 514-694. *)
From Verif Require Import Base.

Section Trie.
Variable V : Type.

(* bc_trie_node_t: key, data, child, next. [Nil] is the NULL pointer. *)
Inductive trie : Type :=
| Nil
| Node (key : ascii) (data : option V) (child next : trie).

(* bc_trie_new, utils.c 514-521 *)
Definition trie_new : trie := Nil.

(* bc_trie_insert, utils.c 547-604. [k] is the key including its terminating
   NUL. Each iteration of the while loop handles one byte of the key: it walks
   the sibling list ([walk]), appends a node at its end if the byte is missing,
   and stores the data at the node of the NUL byte. The second component lists
   the values passed to free_func. *)
Fixpoint insert_go (k : bytes) (v : V) (t : trie) {struct k} : trie * list V :=
  match k with
  | [] => (t, [])                                   (* not reached: keys end with NUL *)
  | c :: k' =>
      (fix walk (t : trie) : trie * list V :=
         match t with
         | Nil =>                                   (* 560-572 and 587-593: new node *)
             if c == NUL then (Node c (Some v) Nil Nil, [])
             else let '(ch, fr) := insert_go k' v Nil in (Node c None ch Nil, fr)
         | Node c0 d ch nx =>
             if c0 == c then
               if c == NUL then                     (* 596-601 *)
                 (Node c0 (Some v) ch nx, match d with Some o => [o] | None => [] end)
               else let '(ch', fr) := insert_go k' v ch in (Node c0 d ch' nx, fr)
             else let '(nx', fr) := walk nx in (Node c0 d ch nx', fr)
         end) t
  end.

Definition trie_insert_f (t : trie) (k : bytes) (v : V) : trie * list V :=
  insert_go (k ++ [NUL]) v t.
Definition trie_insert (t : trie) (k : bytes) (v : V) : trie := fst (trie_insert_f t k v).

(* bc_trie_lookup, utils.c 607-633 *)
Fixpoint lookup_go (k : bytes) (t : trie) {struct k} : option V :=
  match k with
  | [] => None
  | c :: k' =>
      (fix walk (t : trie) : option V :=
         match t with
         | Nil => None
         | Node c0 d ch nx =>
             if c0 == c then (if c0 == NUL then d else lookup_go k' ch)
             else walk nx
         end) t
  end.
Definition trie_lookup (t : trie) (k : bytes) : option V := lookup_go (k ++ [NUL]) t.

(* bc_trie_size, utils.c 636-659 *)
Fixpoint trie_size (t : trie) : nat :=
  match t with
  | Nil => 0
  | Node c _ ch nx => (if c == NUL then 1 else 0) + trie_size nx + trie_size ch
  end.

(* bc_trie_foreach, utils.c 662-694: the calls of the callback, in order. The
   value is node->data, possibly NULL. *)
Fixpoint foreach_go (t : trie) (str : bytes) : list (bytes * option V) :=
  match t with
  | Nil => []
  | Node c d ch nx =>
      (if c == NUL then [(str, d)] else [])
        ++ foreach_go ch (str ++ [c])
        ++ foreach_go nx str
  end.
Definition trie_foreach (t : trie) : list (bytes * option V) := foreach_go t [].

(* bc_trie_free, utils.c 524-544: the values passed to free_func *)
Fixpoint trie_free (t : trie) : list V :=
  match t with
  | Nil => []
  | Node _ d ch nx =>
      (match d with Some v => [v] | None => [] end) ++ trie_free nx ++ trie_free ch
  end.

(* A history of insertions, oldest first. *)
Definition trie_inserts (h : list (bytes * V)) (t : trie) : trie :=
  fold_left (fun t kv => trie_insert t (fst kv) (snd kv)) h t.

(* Values freed during a history of insertions. *)
Fixpoint trie_inserts_f (h : list (bytes * V)) (t : trie) : trie * list V :=
  match h with
  | [] => (t, [])
  | (k, v) :: h' =>
      let '(t1, f1) := trie_insert_f t k v in
      let '(t2, f2) := trie_inserts_f h' t1 in
      (t2, f1 ++ f2)
  end.
End Trie.
Arguments Nil {V}.
Arguments Node {V} key data child next.
Arguments trie_new {V}.
