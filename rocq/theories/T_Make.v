(* The expectations of the unit tests of the project (tests/blogc-make), as
   statements on the model. Written by a program from the C text of the tests: every
   call to a modelled function is replaced by the model, every assertion by an
   equation. Assertions on NULL arguments, on error codes and on functions that are not
   modelled are left out. These are tests of the model, not proofs of properties. *)
From Coq Require Import ZArith DecimalString.
From Verif Require Import Base Utils Trie ErrorPos Config Settings Filename BlogcCmd Atom Rules.
#[local] Open Scope nat_scope.


Ltac tests := repeat match goal with |- _ /\ _ => split end; vm_compute; reflexivity.
(* assert_null *)
Definition isnone (A : Type) (x : option A) : bool := match x with None => true | Some _ => false end.
(* an array of strings, or NULL: the string at an index *)
Definition at_ (x : option (list bytes)) (n : nat) : option bytes := match x with Some l => nth_error l n | None => None end.
Definition olen (x : option (list bytes)) : nat := match x with Some l => length l | None => 0 end.
Definition ok_opt (A : Type) (x : res (option A)) : option A := match x with Ok r => r | _ => None end.
Definition num (n : nat) : bytes := B (NilEmpty.string_of_uint (Nat.to_uint n)).
(* the message of bc_error_parser, error.c 34-90 *)
Definition near (src : bytes) (at' : nat) (msg : bytes) : bytes :=
  match error_near src at' with
  | Some (line, pos, text) => msg ++ [LF] ++ B "Error occurred near line " ++ num line ++ B ", position " ++ num pos ++ B ": " ++ text
  | None => msg
  end.

Definition lookup_ (t : option (trie bytes)) (k : bytes) : option bytes := match t with Some t => trie_lookup t k | None => None end.
Definition size_ (t : option (trie bytes)) : nat := match t with Some t => trie_size t | None => 0 end.
Definition set_of (r : res (settings + bytes)) : option settings := match r with Ok (Datatypes.inl s) => Some s | _ => None end.
Definition set_list (g : settings -> option (list bytes)) (s : option settings) : option (list bytes) := match s with Some s => g s | None => None end.
Definition set_err (src : bytes) (r : res (settings + bytes)) : option bytes :=
  match r with Ok (Datatypes.inr e) => Some e | _ => None end.
Definition ok_bytes (x : res bytes) : option bytes := match x with Ok r => Some r | _ => None end.

(* ---------- tests/blogc-make/check_utils.c ---------- *)

Example test_generate_filename_1 :
  isnone (generate_filename None None None None None) = true /\
  isnone (generate_filename None None (Some []) (Some []) (Some [])) = true /\
  isnone (generate_filename (Some (B "_build")) None None None None) = true /\
  isnone (generate_filename (Some (B "_build")) None (Some []) (Some []) (Some [])) = true /\
  generate_filename None None None None (Some (B ".html")) = Some (B "/index.html") /\
  generate_filename None None None None (Some (B "/index.html")) = Some (B "/index.html") /\
  generate_filename None None (Some (B "lol")) None (Some (B ".html")) = Some (B "/lol.html") /\
  generate_filename None None (Some (B "lol")) None (Some (B "/index.html")) = Some (B "/lol/index.html") /\
  generate_filename None None None (Some (B "foo")) (Some (B ".html")) = Some (B "/foo.html") /\
  generate_filename None None None (Some (B "foo")) (Some (B "/index.html")) = Some (B "/foo/index.html") /\
  generate_filename None None None (Some (B "index")) (Some (B ".html")) = Some (B "/index.html") /\
  generate_filename None None (Some (B "lol")) (Some (B "index")) (Some (B ".html")) = Some (B "/lol/index.html") /\
  generate_filename None None None (Some (B "index")) (Some (B "/index.html")) = Some (B "/index.html") /\
  generate_filename None None (Some (B "lol")) (Some (B "index")) (Some (B "/index.html")) = Some (B "/lol/index/index.html") /\
  generate_filename None None (Some (B "bar")) (Some (B "foo")) (Some (B ".html")) = Some (B "/bar/foo.html") /\
  generate_filename None None (Some (B "bar")) (Some (B "foo")) (Some (B "/index.html")) = Some (B "/bar/foo/index.html") /\
  generate_filename (Some (B "_build")) None None None (Some (B ".html")) = Some (B "_build/index.html") /\
  generate_filename (Some (B "_build")) None None None (Some (B "/index.html")) = Some (B "_build/index.html") /\
  generate_filename (Some (B "_build")) None (Some (B "lol")) None (Some (B ".html")) = Some (B "_build/lol.html") /\
  generate_filename (Some (B "_build")) None (Some (B "lol")) None (Some (B "/index.html")) = Some (B "_build/lol/index.html") /\
  generate_filename (Some (B "_build")) None None (Some (B "foo")) (Some (B ".html")) = Some (B "_build/foo.html") /\
  generate_filename (Some (B "_build")) None None (Some (B "foo")) (Some (B "/index.html")) = Some (B "_build/foo/index.html") /\
  generate_filename (Some (B "_build")) None None (Some (B "index")) (Some (B ".html")) = Some (B "_build/index.html") /\
  generate_filename (Some (B "_build")) None (Some (B "lol")) (Some (B "index")) (Some (B ".html")) = Some (B "_build/lol/index.html").
Proof. tests. Qed.

Example test_generate_filename_2 :
  generate_filename (Some (B "_build")) None None (Some (B "index")) (Some (B "/index.html")) = Some (B "_build/index.html") /\
  generate_filename (Some (B "_build")) None (Some (B "lol")) (Some (B "index")) (Some (B "/index.html")) = Some (B "_build/lol/index/index.html") /\
  generate_filename (Some (B "_build")) None (Some (B "bar")) (Some (B "foo")) (Some (B ".html")) = Some (B "_build/bar/foo.html") /\
  generate_filename (Some (B "_build")) None (Some (B "bar")) (Some (B "foo")) (Some (B "/index.html")) = Some (B "_build/bar/foo/index.html") /\
  generate_filename None (Some (B "foo")) None None (Some (B ".html")) = Some (B "/foo/index.html") /\
  generate_filename None (Some (B "foo")) None None (Some (B "/index.html")) = Some (B "/foo/index.html") /\
  generate_filename None (Some (B "foo")) (Some (B "lol")) None (Some (B ".html")) = Some (B "/foo/lol.html") /\
  generate_filename None (Some (B "foo")) (Some (B "lol")) None (Some (B "/index.html")) = Some (B "/foo/lol/index.html") /\
  generate_filename None (Some (B "foo")) None (Some (B "foo")) (Some (B ".html")) = Some (B "/foo/foo.html") /\
  generate_filename None (Some (B "foo")) None (Some (B "foo")) (Some (B "/index.html")) = Some (B "/foo/foo/index.html") /\
  generate_filename None (Some (B "foo")) None (Some (B "index")) (Some (B ".html")) = Some (B "/foo/index.html") /\
  generate_filename None (Some (B "foo")) (Some (B "lol")) (Some (B "index")) (Some (B ".html")) = Some (B "/foo/lol/index.html") /\
  generate_filename None (Some (B "foo")) None (Some (B "index")) (Some (B "/index.html")) = Some (B "/foo/index.html") /\
  generate_filename None (Some (B "foo")) (Some (B "lol")) (Some (B "index")) (Some (B "/index.html")) = Some (B "/foo/lol/index/index.html") /\
  generate_filename None (Some (B "foo")) (Some (B "bar")) (Some (B "foo")) (Some (B ".html")) = Some (B "/foo/bar/foo.html") /\
  generate_filename None (Some (B "foo")) (Some (B "bar")) (Some (B "foo")) (Some (B "/index.html")) = Some (B "/foo/bar/foo/index.html") /\
  generate_filename (Some (B "_build")) (Some (B "foo")) None None (Some (B ".html")) = Some (B "_build/foo/index.html") /\
  generate_filename (Some (B "_build")) (Some (B "foo")) None None (Some (B "/index.html")) = Some (B "_build/foo/index.html") /\
  generate_filename (Some (B "_build")) (Some (B "foo")) (Some (B "lol")) None (Some (B ".html")) = Some (B "_build/foo/lol.html") /\
  generate_filename (Some (B "_build")) (Some (B "foo")) (Some (B "lol")) None (Some (B "/index.html")) = Some (B "_build/foo/lol/index.html") /\
  generate_filename (Some (B "_build")) (Some (B "foo")) None (Some (B "foo")) (Some (B ".html")) = Some (B "_build/foo/foo.html") /\
  generate_filename (Some (B "_build")) (Some (B "foo")) None (Some (B "foo")) (Some (B "/index.html")) = Some (B "_build/foo/foo/index.html") /\
  generate_filename (Some (B "_build")) (Some (B "foo")) None (Some (B "index")) (Some (B ".html")) = Some (B "_build/foo/index.html") /\
  generate_filename (Some (B "_build")) (Some (B "foo")) (Some (B "lol")) (Some (B "index")) (Some (B ".html")) = Some (B "_build/foo/lol/index.html").
Proof. tests. Qed.

Example test_generate_filename_3 :
  generate_filename (Some (B "_build")) (Some (B "foo")) None (Some (B "index")) (Some (B "/index.html")) = Some (B "_build/foo/index.html") /\
  generate_filename (Some (B "_build")) (Some (B "foo")) (Some (B "lol")) (Some (B "index")) (Some (B "/index.html")) = Some (B "_build/foo/lol/index/index.html") /\
  generate_filename (Some (B "_build")) (Some (B "foo")) (Some (B "bar")) (Some (B "foo")) (Some (B ".html")) = Some (B "_build/foo/bar/foo.html") /\
  generate_filename (Some (B "_build")) (Some (B "foo")) (Some (B "bar")) (Some (B "foo")) (Some (B "/index.html")) = Some (B "_build/foo/bar/foo/index.html").
Proof. tests. Qed.

Example test_generate_filename2_1 :
  isnone (generate_filename2 None None None None None None None) = true /\
  isnone (generate_filename2 None None (Some []) (Some []) (Some []) (Some []) (Some [])) = true /\
  isnone (generate_filename2 (Some (B "_build")) None None None None None None) = true /\
  isnone (generate_filename2 (Some (B "_build")) None (Some []) (Some []) (Some []) (Some []) (Some [])) = true /\
  generate_filename2 None None None None None None (Some (B ".html")) = Some (B "/index.html") /\
  generate_filename2 None None (Some (B "p")) None None None (Some (B ".html")) = Some (B "/p.html") /\
  generate_filename2 None None None (Some (B "q")) None None (Some (B ".html")) = Some (B "/q.html") /\
  generate_filename2 None None (Some (B "p")) (Some (B "q")) None None (Some (B ".html")) = Some (B "/p/q.html") /\
  generate_filename2 None None None None None None (Some (B "/index.html")) = Some (B "/index.html") /\
  generate_filename2 None None (Some (B "p")) None None None (Some (B "/index.html")) = Some (B "/p/index.html") /\
  generate_filename2 None None None (Some (B "q")) None None (Some (B "/index.html")) = Some (B "/q/index.html") /\
  generate_filename2 None None (Some (B "p")) (Some (B "q")) None None (Some (B "/index.html")) = Some (B "/p/q/index.html") /\
  generate_filename2 None None None None (Some (B "lol")) None (Some (B ".html")) = Some (B "/lol.html") /\
  generate_filename2 None None (Some (B "p")) None (Some (B "lol")) None (Some (B ".html")) = Some (B "/p/lol.html") /\
  generate_filename2 None None None (Some (B "q")) (Some (B "lol")) None (Some (B ".html")) = Some (B "/q/lol.html") /\
  generate_filename2 None None (Some (B "p")) (Some (B "q")) (Some (B "lol")) None (Some (B ".html")) = Some (B "/p/q/lol.html") /\
  generate_filename2 None None None None (Some (B "lol")) None (Some (B "/index.html")) = Some (B "/lol/index.html") /\
  generate_filename2 None None (Some (B "p")) None (Some (B "lol")) None (Some (B "/index.html")) = Some (B "/p/lol/index.html") /\
  generate_filename2 None None None (Some (B "q")) (Some (B "lol")) None (Some (B "/index.html")) = Some (B "/q/lol/index.html") /\
  generate_filename2 None None (Some (B "p")) (Some (B "q")) (Some (B "lol")) None (Some (B "/index.html")) = Some (B "/p/q/lol/index.html") /\
  generate_filename2 None None None None None (Some (B "foo")) (Some (B ".html")) = Some (B "/foo.html") /\
  generate_filename2 None None (Some (B "p")) None None (Some (B "foo")) (Some (B ".html")) = Some (B "/p/foo.html") /\
  generate_filename2 None None None (Some (B "q")) None (Some (B "foo")) (Some (B ".html")) = Some (B "/q/foo.html") /\
  generate_filename2 None None (Some (B "p")) (Some (B "q")) None (Some (B "foo")) (Some (B ".html")) = Some (B "/p/q/foo.html").
Proof. tests. Qed.

Example test_generate_filename2_2 :
  generate_filename2 None None None None None (Some (B "foo")) (Some (B "/index.html")) = Some (B "/foo/index.html") /\
  generate_filename2 None None (Some (B "p")) None None (Some (B "foo")) (Some (B "/index.html")) = Some (B "/p/foo/index.html") /\
  generate_filename2 None None None (Some (B "q")) None (Some (B "foo")) (Some (B "/index.html")) = Some (B "/q/foo/index.html") /\
  generate_filename2 None None (Some (B "p")) (Some (B "q")) None (Some (B "foo")) (Some (B "/index.html")) = Some (B "/p/q/foo/index.html") /\
  generate_filename2 None None None None None (Some (B "index")) (Some (B ".html")) = Some (B "/index.html") /\
  generate_filename2 None None (Some (B "p")) None None (Some (B "index")) (Some (B ".html")) = Some (B "/p/index.html") /\
  generate_filename2 None None None (Some (B "q")) None (Some (B "index")) (Some (B ".html")) = Some (B "/q/index.html") /\
  generate_filename2 None None (Some (B "p")) (Some (B "q")) None (Some (B "index")) (Some (B ".html")) = Some (B "/p/q/index.html") /\
  generate_filename2 None None None None None (Some (B "index")) (Some (B "/index.html")) = Some (B "/index.html") /\
  generate_filename2 None None (Some (B "p")) None None (Some (B "index")) (Some (B "/index.html")) = Some (B "/p/index/index.html") /\
  generate_filename2 None None None (Some (B "q")) None (Some (B "index")) (Some (B "/index.html")) = Some (B "/q/index/index.html") /\
  generate_filename2 None None (Some (B "p")) (Some (B "q")) None (Some (B "index")) (Some (B "/index.html")) = Some (B "/p/q/index/index.html") /\
  generate_filename2 None None None None (Some (B "bar")) (Some (B "foo")) (Some (B ".html")) = Some (B "/bar/foo.html") /\
  generate_filename2 None None (Some (B "p")) None (Some (B "bar")) (Some (B "foo")) (Some (B ".html")) = Some (B "/p/bar/foo.html") /\
  generate_filename2 None None None (Some (B "q")) (Some (B "bar")) (Some (B "foo")) (Some (B ".html")) = Some (B "/q/bar/foo.html") /\
  generate_filename2 None None (Some (B "p")) (Some (B "q")) (Some (B "bar")) (Some (B "foo")) (Some (B ".html")) = Some (B "/p/q/bar/foo.html") /\
  generate_filename2 None None None None (Some (B "bar")) (Some (B "foo")) (Some (B "/index.html")) = Some (B "/bar/foo/index.html") /\
  generate_filename2 None None (Some (B "p")) None (Some (B "bar")) (Some (B "foo")) (Some (B "/index.html")) = Some (B "/p/bar/foo/index.html") /\
  generate_filename2 None None None (Some (B "q")) (Some (B "bar")) (Some (B "foo")) (Some (B "/index.html")) = Some (B "/q/bar/foo/index.html") /\
  generate_filename2 None None (Some (B "p")) (Some (B "q")) (Some (B "bar")) (Some (B "foo")) (Some (B "/index.html")) = Some (B "/p/q/bar/foo/index.html") /\
  generate_filename2 (Some (B "_build")) None None None None None (Some (B ".html")) = Some (B "_build/index.html") /\
  generate_filename2 (Some (B "_build")) None (Some (B "p")) None None None (Some (B ".html")) = Some (B "_build/p.html") /\
  generate_filename2 (Some (B "_build")) None None (Some (B "q")) None None (Some (B ".html")) = Some (B "_build/q.html") /\
  generate_filename2 (Some (B "_build")) None (Some (B "p")) (Some (B "q")) None None (Some (B ".html")) = Some (B "_build/p/q.html").
Proof. tests. Qed.

Example test_generate_filename2_3 :
  generate_filename2 (Some (B "_build")) None None None None None (Some (B "/index.html")) = Some (B "_build/index.html") /\
  generate_filename2 (Some (B "_build")) None (Some (B "p")) None None None (Some (B "/index.html")) = Some (B "_build/p/index.html") /\
  generate_filename2 (Some (B "_build")) None None (Some (B "q")) None None (Some (B "/index.html")) = Some (B "_build/q/index.html") /\
  generate_filename2 (Some (B "_build")) None (Some (B "p")) (Some (B "q")) None None (Some (B "/index.html")) = Some (B "_build/p/q/index.html") /\
  generate_filename2 (Some (B "_build")) None None None (Some (B "lol")) None (Some (B ".html")) = Some (B "_build/lol.html") /\
  generate_filename2 (Some (B "_build")) None (Some (B "p")) None (Some (B "lol")) None (Some (B ".html")) = Some (B "_build/p/lol.html") /\
  generate_filename2 (Some (B "_build")) None None (Some (B "q")) (Some (B "lol")) None (Some (B ".html")) = Some (B "_build/q/lol.html") /\
  generate_filename2 (Some (B "_build")) None (Some (B "p")) (Some (B "q")) (Some (B "lol")) None (Some (B ".html")) = Some (B "_build/p/q/lol.html") /\
  generate_filename2 (Some (B "_build")) None None None (Some (B "lol")) None (Some (B "/index.html")) = Some (B "_build/lol/index.html") /\
  generate_filename2 (Some (B "_build")) None (Some (B "p")) None (Some (B "lol")) None (Some (B "/index.html")) = Some (B "_build/p/lol/index.html") /\
  generate_filename2 (Some (B "_build")) None None (Some (B "q")) (Some (B "lol")) None (Some (B "/index.html")) = Some (B "_build/q/lol/index.html") /\
  generate_filename2 (Some (B "_build")) None (Some (B "p")) (Some (B "q")) (Some (B "lol")) None (Some (B "/index.html")) = Some (B "_build/p/q/lol/index.html") /\
  generate_filename2 (Some (B "_build")) None None None None (Some (B "foo")) (Some (B ".html")) = Some (B "_build/foo.html") /\
  generate_filename2 (Some (B "_build")) None (Some (B "p")) None None (Some (B "foo")) (Some (B ".html")) = Some (B "_build/p/foo.html") /\
  generate_filename2 (Some (B "_build")) None None (Some (B "q")) None (Some (B "foo")) (Some (B ".html")) = Some (B "_build/q/foo.html") /\
  generate_filename2 (Some (B "_build")) None (Some (B "p")) (Some (B "q")) None (Some (B "foo")) (Some (B ".html")) = Some (B "_build/p/q/foo.html") /\
  generate_filename2 (Some (B "_build")) None None None None (Some (B "foo")) (Some (B "/index.html")) = Some (B "_build/foo/index.html") /\
  generate_filename2 (Some (B "_build")) None (Some (B "p")) None None (Some (B "foo")) (Some (B "/index.html")) = Some (B "_build/p/foo/index.html") /\
  generate_filename2 (Some (B "_build")) None None (Some (B "q")) None (Some (B "foo")) (Some (B "/index.html")) = Some (B "_build/q/foo/index.html") /\
  generate_filename2 (Some (B "_build")) None (Some (B "p")) (Some (B "q")) None (Some (B "foo")) (Some (B "/index.html")) = Some (B "_build/p/q/foo/index.html") /\
  generate_filename2 (Some (B "_build")) None None None None (Some (B "index")) (Some (B ".html")) = Some (B "_build/index.html") /\
  generate_filename2 (Some (B "_build")) None (Some (B "p")) None None (Some (B "index")) (Some (B ".html")) = Some (B "_build/p/index.html") /\
  generate_filename2 (Some (B "_build")) None None (Some (B "q")) None (Some (B "index")) (Some (B ".html")) = Some (B "_build/q/index.html") /\
  generate_filename2 (Some (B "_build")) None (Some (B "p")) (Some (B "q")) None (Some (B "index")) (Some (B ".html")) = Some (B "_build/p/q/index.html").
Proof. tests. Qed.

Example test_generate_filename2_4 :
  generate_filename2 (Some (B "_build")) None None None None (Some (B "index")) (Some (B "/index.html")) = Some (B "_build/index.html") /\
  generate_filename2 (Some (B "_build")) None (Some (B "p")) None None (Some (B "index")) (Some (B "/index.html")) = Some (B "_build/p/index/index.html") /\
  generate_filename2 (Some (B "_build")) None None (Some (B "q")) None (Some (B "index")) (Some (B "/index.html")) = Some (B "_build/q/index/index.html") /\
  generate_filename2 (Some (B "_build")) None (Some (B "p")) (Some (B "q")) None (Some (B "index")) (Some (B "/index.html")) = Some (B "_build/p/q/index/index.html") /\
  generate_filename2 (Some (B "_build")) None None None (Some (B "bar")) (Some (B "foo")) (Some (B ".html")) = Some (B "_build/bar/foo.html") /\
  generate_filename2 (Some (B "_build")) None (Some (B "p")) None (Some (B "bar")) (Some (B "foo")) (Some (B ".html")) = Some (B "_build/p/bar/foo.html") /\
  generate_filename2 (Some (B "_build")) None None (Some (B "q")) (Some (B "bar")) (Some (B "foo")) (Some (B ".html")) = Some (B "_build/q/bar/foo.html") /\
  generate_filename2 (Some (B "_build")) None (Some (B "p")) (Some (B "q")) (Some (B "bar")) (Some (B "foo")) (Some (B ".html")) = Some (B "_build/p/q/bar/foo.html") /\
  generate_filename2 (Some (B "_build")) None None None (Some (B "bar")) (Some (B "foo")) (Some (B "/index.html")) = Some (B "_build/bar/foo/index.html") /\
  generate_filename2 (Some (B "_build")) None (Some (B "p")) None (Some (B "bar")) (Some (B "foo")) (Some (B "/index.html")) = Some (B "_build/p/bar/foo/index.html") /\
  generate_filename2 (Some (B "_build")) None None (Some (B "q")) (Some (B "bar")) (Some (B "foo")) (Some (B "/index.html")) = Some (B "_build/q/bar/foo/index.html") /\
  generate_filename2 (Some (B "_build")) None (Some (B "p")) (Some (B "q")) (Some (B "bar")) (Some (B "foo")) (Some (B "/index.html")) = Some (B "_build/p/q/bar/foo/index.html") /\
  generate_filename2 None (Some (B "foo")) None None None None (Some (B ".html")) = Some (B "/foo/index.html") /\
  generate_filename2 None (Some (B "foo")) (Some (B "p")) None None None (Some (B ".html")) = Some (B "/foo/p.html") /\
  generate_filename2 None (Some (B "foo")) None (Some (B "q")) None None (Some (B ".html")) = Some (B "/foo/q.html") /\
  generate_filename2 None (Some (B "foo")) (Some (B "p")) (Some (B "q")) None None (Some (B ".html")) = Some (B "/foo/p/q.html") /\
  generate_filename2 None (Some (B "foo")) None None None None (Some (B "/index.html")) = Some (B "/foo/index.html") /\
  generate_filename2 None (Some (B "foo")) (Some (B "p")) None None None (Some (B "/index.html")) = Some (B "/foo/p/index.html") /\
  generate_filename2 None (Some (B "foo")) None (Some (B "q")) None None (Some (B "/index.html")) = Some (B "/foo/q/index.html") /\
  generate_filename2 None (Some (B "foo")) (Some (B "p")) (Some (B "q")) None None (Some (B "/index.html")) = Some (B "/foo/p/q/index.html") /\
  generate_filename2 None (Some (B "foo")) None None (Some (B "lol")) None (Some (B ".html")) = Some (B "/foo/lol.html") /\
  generate_filename2 None (Some (B "foo")) (Some (B "p")) None (Some (B "lol")) None (Some (B ".html")) = Some (B "/foo/p/lol.html") /\
  generate_filename2 None (Some (B "foo")) None (Some (B "q")) (Some (B "lol")) None (Some (B ".html")) = Some (B "/foo/q/lol.html") /\
  generate_filename2 None (Some (B "foo")) (Some (B "p")) (Some (B "q")) (Some (B "lol")) None (Some (B ".html")) = Some (B "/foo/p/q/lol.html").
Proof. tests. Qed.

Example test_generate_filename2_5 :
  generate_filename2 None (Some (B "foo")) None None (Some (B "lol")) None (Some (B "/index.html")) = Some (B "/foo/lol/index.html") /\
  generate_filename2 None (Some (B "foo")) (Some (B "p")) None (Some (B "lol")) None (Some (B "/index.html")) = Some (B "/foo/p/lol/index.html") /\
  generate_filename2 None (Some (B "foo")) None (Some (B "q")) (Some (B "lol")) None (Some (B "/index.html")) = Some (B "/foo/q/lol/index.html") /\
  generate_filename2 None (Some (B "foo")) (Some (B "p")) (Some (B "q")) (Some (B "lol")) None (Some (B "/index.html")) = Some (B "/foo/p/q/lol/index.html") /\
  generate_filename2 None (Some (B "foo")) None None None (Some (B "foo")) (Some (B ".html")) = Some (B "/foo/foo.html") /\
  generate_filename2 None (Some (B "foo")) (Some (B "p")) None None (Some (B "foo")) (Some (B ".html")) = Some (B "/foo/p/foo.html") /\
  generate_filename2 None (Some (B "foo")) None (Some (B "q")) None (Some (B "foo")) (Some (B ".html")) = Some (B "/foo/q/foo.html") /\
  generate_filename2 None (Some (B "foo")) (Some (B "p")) (Some (B "q")) None (Some (B "foo")) (Some (B ".html")) = Some (B "/foo/p/q/foo.html") /\
  generate_filename2 None (Some (B "foo")) None None None (Some (B "foo")) (Some (B "/index.html")) = Some (B "/foo/foo/index.html") /\
  generate_filename2 None (Some (B "foo")) (Some (B "p")) None None (Some (B "foo")) (Some (B "/index.html")) = Some (B "/foo/p/foo/index.html") /\
  generate_filename2 None (Some (B "foo")) None (Some (B "q")) None (Some (B "foo")) (Some (B "/index.html")) = Some (B "/foo/q/foo/index.html") /\
  generate_filename2 None (Some (B "foo")) (Some (B "p")) (Some (B "q")) None (Some (B "foo")) (Some (B "/index.html")) = Some (B "/foo/p/q/foo/index.html") /\
  generate_filename2 None (Some (B "foo")) None None None (Some (B "index")) (Some (B ".html")) = Some (B "/foo/index.html") /\
  generate_filename2 None (Some (B "foo")) (Some (B "p")) None None (Some (B "index")) (Some (B ".html")) = Some (B "/foo/p/index.html") /\
  generate_filename2 None (Some (B "foo")) None (Some (B "q")) None (Some (B "index")) (Some (B ".html")) = Some (B "/foo/q/index.html") /\
  generate_filename2 None (Some (B "foo")) (Some (B "p")) (Some (B "q")) None (Some (B "index")) (Some (B ".html")) = Some (B "/foo/p/q/index.html") /\
  generate_filename2 None (Some (B "foo")) None None None (Some (B "index")) (Some (B "/index.html")) = Some (B "/foo/index.html") /\
  generate_filename2 None (Some (B "foo")) (Some (B "p")) None None (Some (B "index")) (Some (B "/index.html")) = Some (B "/foo/p/index/index.html") /\
  generate_filename2 None (Some (B "foo")) None (Some (B "q")) None (Some (B "index")) (Some (B "/index.html")) = Some (B "/foo/q/index/index.html") /\
  generate_filename2 None (Some (B "foo")) (Some (B "p")) (Some (B "q")) None (Some (B "index")) (Some (B "/index.html")) = Some (B "/foo/p/q/index/index.html") /\
  generate_filename2 None (Some (B "foo")) None None (Some (B "bar")) (Some (B "foo")) (Some (B ".html")) = Some (B "/foo/bar/foo.html") /\
  generate_filename2 None (Some (B "foo")) (Some (B "p")) None (Some (B "bar")) (Some (B "foo")) (Some (B ".html")) = Some (B "/foo/p/bar/foo.html") /\
  generate_filename2 None (Some (B "foo")) None (Some (B "q")) (Some (B "bar")) (Some (B "foo")) (Some (B ".html")) = Some (B "/foo/q/bar/foo.html") /\
  generate_filename2 None (Some (B "foo")) (Some (B "p")) (Some (B "q")) (Some (B "bar")) (Some (B "foo")) (Some (B ".html")) = Some (B "/foo/p/q/bar/foo.html").
Proof. tests. Qed.

Example test_generate_filename2_6 :
  generate_filename2 None (Some (B "foo")) None None (Some (B "bar")) (Some (B "foo")) (Some (B "/index.html")) = Some (B "/foo/bar/foo/index.html") /\
  generate_filename2 None (Some (B "foo")) (Some (B "p")) None (Some (B "bar")) (Some (B "foo")) (Some (B "/index.html")) = Some (B "/foo/p/bar/foo/index.html") /\
  generate_filename2 None (Some (B "foo")) None (Some (B "q")) (Some (B "bar")) (Some (B "foo")) (Some (B "/index.html")) = Some (B "/foo/q/bar/foo/index.html") /\
  generate_filename2 None (Some (B "foo")) (Some (B "p")) (Some (B "q")) (Some (B "bar")) (Some (B "foo")) (Some (B "/index.html")) = Some (B "/foo/p/q/bar/foo/index.html") /\
  generate_filename2 (Some (B "_build")) (Some (B "foo")) None None None None (Some (B ".html")) = Some (B "_build/foo/index.html") /\
  generate_filename2 (Some (B "_build")) (Some (B "foo")) (Some (B "p")) None None None (Some (B ".html")) = Some (B "_build/foo/p.html") /\
  generate_filename2 (Some (B "_build")) (Some (B "foo")) None (Some (B "q")) None None (Some (B ".html")) = Some (B "_build/foo/q.html") /\
  generate_filename2 (Some (B "_build")) (Some (B "foo")) (Some (B "p")) (Some (B "q")) None None (Some (B ".html")) = Some (B "_build/foo/p/q.html") /\
  generate_filename2 (Some (B "_build")) (Some (B "foo")) None None None None (Some (B "/index.html")) = Some (B "_build/foo/index.html") /\
  generate_filename2 (Some (B "_build")) (Some (B "foo")) (Some (B "p")) None None None (Some (B "/index.html")) = Some (B "_build/foo/p/index.html") /\
  generate_filename2 (Some (B "_build")) (Some (B "foo")) None (Some (B "q")) None None (Some (B "/index.html")) = Some (B "_build/foo/q/index.html") /\
  generate_filename2 (Some (B "_build")) (Some (B "foo")) (Some (B "p")) (Some (B "q")) None None (Some (B "/index.html")) = Some (B "_build/foo/p/q/index.html") /\
  generate_filename2 (Some (B "_build")) (Some (B "foo")) None None (Some (B "lol")) None (Some (B ".html")) = Some (B "_build/foo/lol.html") /\
  generate_filename2 (Some (B "_build")) (Some (B "foo")) (Some (B "p")) None (Some (B "lol")) None (Some (B ".html")) = Some (B "_build/foo/p/lol.html") /\
  generate_filename2 (Some (B "_build")) (Some (B "foo")) None (Some (B "q")) (Some (B "lol")) None (Some (B ".html")) = Some (B "_build/foo/q/lol.html") /\
  generate_filename2 (Some (B "_build")) (Some (B "foo")) (Some (B "p")) (Some (B "q")) (Some (B "lol")) None (Some (B ".html")) = Some (B "_build/foo/p/q/lol.html") /\
  generate_filename2 (Some (B "_build")) (Some (B "foo")) None None (Some (B "lol")) None (Some (B "/index.html")) = Some (B "_build/foo/lol/index.html") /\
  generate_filename2 (Some (B "_build")) (Some (B "foo")) (Some (B "p")) None (Some (B "lol")) None (Some (B "/index.html")) = Some (B "_build/foo/p/lol/index.html") /\
  generate_filename2 (Some (B "_build")) (Some (B "foo")) None (Some (B "q")) (Some (B "lol")) None (Some (B "/index.html")) = Some (B "_build/foo/q/lol/index.html") /\
  generate_filename2 (Some (B "_build")) (Some (B "foo")) (Some (B "p")) (Some (B "q")) (Some (B "lol")) None (Some (B "/index.html")) = Some (B "_build/foo/p/q/lol/index.html") /\
  generate_filename2 (Some (B "_build")) (Some (B "foo")) None None None (Some (B "foo")) (Some (B ".html")) = Some (B "_build/foo/foo.html") /\
  generate_filename2 (Some (B "_build")) (Some (B "foo")) (Some (B "p")) None None (Some (B "foo")) (Some (B ".html")) = Some (B "_build/foo/p/foo.html") /\
  generate_filename2 (Some (B "_build")) (Some (B "foo")) None (Some (B "q")) None (Some (B "foo")) (Some (B ".html")) = Some (B "_build/foo/q/foo.html") /\
  generate_filename2 (Some (B "_build")) (Some (B "foo")) (Some (B "p")) (Some (B "q")) None (Some (B "foo")) (Some (B ".html")) = Some (B "_build/foo/p/q/foo.html").
Proof. tests. Qed.

Example test_generate_filename2_7 :
  generate_filename2 (Some (B "_build")) (Some (B "foo")) None None None (Some (B "foo")) (Some (B "/index.html")) = Some (B "_build/foo/foo/index.html") /\
  generate_filename2 (Some (B "_build")) (Some (B "foo")) (Some (B "p")) None None (Some (B "foo")) (Some (B "/index.html")) = Some (B "_build/foo/p/foo/index.html") /\
  generate_filename2 (Some (B "_build")) (Some (B "foo")) None (Some (B "q")) None (Some (B "foo")) (Some (B "/index.html")) = Some (B "_build/foo/q/foo/index.html") /\
  generate_filename2 (Some (B "_build")) (Some (B "foo")) (Some (B "p")) (Some (B "q")) None (Some (B "foo")) (Some (B "/index.html")) = Some (B "_build/foo/p/q/foo/index.html") /\
  generate_filename2 (Some (B "_build")) (Some (B "foo")) None None None (Some (B "index")) (Some (B ".html")) = Some (B "_build/foo/index.html") /\
  generate_filename2 (Some (B "_build")) (Some (B "foo")) (Some (B "p")) None None (Some (B "index")) (Some (B ".html")) = Some (B "_build/foo/p/index.html") /\
  generate_filename2 (Some (B "_build")) (Some (B "foo")) None (Some (B "q")) None (Some (B "index")) (Some (B ".html")) = Some (B "_build/foo/q/index.html") /\
  generate_filename2 (Some (B "_build")) (Some (B "foo")) (Some (B "p")) (Some (B "q")) None (Some (B "index")) (Some (B ".html")) = Some (B "_build/foo/p/q/index.html") /\
  generate_filename2 (Some (B "_build")) (Some (B "foo")) None None None (Some (B "index")) (Some (B "/index.html")) = Some (B "_build/foo/index.html") /\
  generate_filename2 (Some (B "_build")) (Some (B "foo")) (Some (B "p")) None None (Some (B "index")) (Some (B "/index.html")) = Some (B "_build/foo/p/index/index.html") /\
  generate_filename2 (Some (B "_build")) (Some (B "foo")) None (Some (B "q")) None (Some (B "index")) (Some (B "/index.html")) = Some (B "_build/foo/q/index/index.html") /\
  generate_filename2 (Some (B "_build")) (Some (B "foo")) (Some (B "p")) (Some (B "q")) None (Some (B "index")) (Some (B "/index.html")) = Some (B "_build/foo/p/q/index/index.html") /\
  generate_filename2 (Some (B "_build")) (Some (B "foo")) None None (Some (B "bar")) (Some (B "foo")) (Some (B ".html")) = Some (B "_build/foo/bar/foo.html") /\
  generate_filename2 (Some (B "_build")) (Some (B "foo")) (Some (B "p")) None (Some (B "bar")) (Some (B "foo")) (Some (B ".html")) = Some (B "_build/foo/p/bar/foo.html") /\
  generate_filename2 (Some (B "_build")) (Some (B "foo")) None (Some (B "q")) (Some (B "bar")) (Some (B "foo")) (Some (B ".html")) = Some (B "_build/foo/q/bar/foo.html") /\
  generate_filename2 (Some (B "_build")) (Some (B "foo")) (Some (B "p")) (Some (B "q")) (Some (B "bar")) (Some (B "foo")) (Some (B ".html")) = Some (B "_build/foo/p/q/bar/foo.html") /\
  generate_filename2 (Some (B "_build")) (Some (B "foo")) None None (Some (B "bar")) (Some (B "foo")) (Some (B "/index.html")) = Some (B "_build/foo/bar/foo/index.html") /\
  generate_filename2 (Some (B "_build")) (Some (B "foo")) (Some (B "p")) None (Some (B "bar")) (Some (B "foo")) (Some (B "/index.html")) = Some (B "_build/foo/p/bar/foo/index.html") /\
  generate_filename2 (Some (B "_build")) (Some (B "foo")) None (Some (B "q")) (Some (B "bar")) (Some (B "foo")) (Some (B "/index.html")) = Some (B "_build/foo/q/bar/foo/index.html") /\
  generate_filename2 (Some (B "_build")) (Some (B "foo")) (Some (B "p")) (Some (B "q")) (Some (B "bar")) (Some (B "foo")) (Some (B "/index.html")) = Some (B "_build/foo/p/q/bar/foo/index.html").
Proof. tests. Qed.

(* ---------- tests/blogc-make/check_exec.c ---------- *)

Example test_find_binary :
  Some (find_binary (fun _ => None) (fun _ => false) None (B "blogc") (B "BLOGC")) = Some (B "blogc") /\
  Some (find_binary (fun _ => None) (fun _ => false) (Some (B "blogc-make")) (B "blogc") (B "BLOGC")) = Some (B "blogc") /\
  Some (find_binary (fun _ => None) (fun p => beq p (B "../blogc") && true) (Some (B "../blogc-make")) (B "blogc") (B "BLOGC")) = Some (B "'../blogc'") /\
  Some (find_binary (fun _ => None) (fun p => beq p (B "/usr/bin/blogc") && true) (Some (B "/usr/bin/blogc-make")) (B "blogc") (B "BLOGC")) = Some (B "'/usr/bin/blogc'") /\
  Some (find_binary (fun _ => None) (fun p => beq p (B "../blogc") && false) (Some (B "../blogc-make")) (B "blogc") (B "BLOGC")) = Some (B "blogc") /\
  Some (find_binary (fun n => if beq n (B "BLOGC") then Some (B "/path/to/blogc") else None) (fun _ => false) None (B "blogc") (B "BLOGC")) = Some (B "'/path/to/blogc'").
Proof. tests. Qed.

Example test_build_blogc_cmd_with_settings :
  Some (build_blogc_cmd (B "blogc") (Some (Settings (trie_insert (trie_insert trie_new (B "FOO") (B "BAR")) (B "BAR") (B "BAZ")) (trie_insert trie_new (B "locale") (B "en_US.utf8")) None None None None)) (Some (trie_insert trie_new (B "LOL") (B "HEHE"))) (Some (trie_insert trie_new (B "ASD") (B "QWE"))) None true None (Some (B "main.tmpl")) (Some (B "foo.html")) false true) = Some (B "LC_ALL='en_US.utf8' blogc -D FOO='BAR' -D BAR='BAZ' -D LOL='HEHE' -D ASD='QWE' -l -t 'main.tmpl' -o 'foo.html' -i") /\
  Some (build_blogc_cmd (B "blogc") (Some (Settings (trie_insert (trie_insert trie_new (B "FOO") (B "BAR")) (B "BAR") (B "BAZ")) (trie_insert trie_new (B "locale") (B "en_US.utf8")) None None None None)) (Some (trie_insert trie_new (B "LOL") (B "HEHE"))) (Some (trie_insert trie_new (B "ASD") (B "QWE"))) None true (Some (B "foo.txt")) (Some (B "main.tmpl")) (Some (B "foo.html")) false true) = Some (B "LC_ALL='en_US.utf8' blogc -D FOO='BAR' -D BAR='BAZ' -D LOL='HEHE' -D ASD='QWE' -l -e 'foo.txt' -t 'main.tmpl' -o 'foo.html' -i") /\
  Some (build_blogc_cmd (B "blogc") (Some (Settings (trie_insert (trie_insert trie_new (B "FOO") (B "BAR")) (B "BAR") (B "BAZ")) (trie_insert trie_new (B "locale") (B "en_US.utf8")) None None None None)) (Some (trie_insert trie_new (B "LOL") (B "HEHE"))) None None false None None None false false) = Some (B "LC_ALL='en_US.utf8' blogc -D FOO='BAR' -D BAR='BAZ' -D LOL='HEHE'") /\
  Some (build_blogc_cmd (B "blogc") (Some (Settings (trie_insert (trie_insert trie_new (B "FOO") (B "BAR")) (B "BAR") (B "BAZ")) (trie_insert trie_new (B "locale") (B "en_US.utf8")) None None None None)) None None None false None None None false false) = Some (B "LC_ALL='en_US.utf8' blogc -D FOO='BAR' -D BAR='BAZ'").
Proof. tests. Qed.

Example test_build_blogc_cmd_with_settings_and_dev :
  Some (build_blogc_cmd (B "blogc") (Some (Settings (trie_insert (trie_insert trie_new (B "FOO") (B "BAR")) (B "BAR") (B "BAZ")) (trie_insert trie_new (B "locale") (B "en_US.utf8")) None None None None)) (Some (trie_insert trie_new (B "LOL") (B "HEHE"))) (Some (trie_insert trie_new (B "ASD") (B "QWE"))) None true None (Some (B "main.tmpl")) (Some (B "foo.html")) true true) = Some (B "LC_ALL='en_US.utf8' blogc -D FOO='BAR' -D BAR='BAZ' -D LOL='HEHE' -D ASD='QWE' -D MAKE_ENV_DEV=1 -D MAKE_ENV='dev' -l -t 'main.tmpl' -o 'foo.html' -i") /\
  Some (build_blogc_cmd (B "blogc") (Some (Settings (trie_insert (trie_insert trie_new (B "FOO") (B "BAR")) (B "BAR") (B "BAZ")) (trie_insert trie_new (B "locale") (B "en_US.utf8")) None None None None)) (Some (trie_insert trie_new (B "LOL") (B "HEHE"))) (Some (trie_insert trie_new (B "ASD") (B "QWE"))) None true (Some (B "foo.txt")) (Some (B "main.tmpl")) (Some (B "foo.html")) true true) = Some (B "LC_ALL='en_US.utf8' blogc -D FOO='BAR' -D BAR='BAZ' -D LOL='HEHE' -D ASD='QWE' -D MAKE_ENV_DEV=1 -D MAKE_ENV='dev' -l -e 'foo.txt' -t 'main.tmpl' -o 'foo.html' -i") /\
  Some (build_blogc_cmd (B "blogc") (Some (Settings (trie_insert (trie_insert trie_new (B "FOO") (B "BAR")) (B "BAR") (B "BAZ")) (trie_insert trie_new (B "locale") (B "en_US.utf8")) None None None None)) (Some (trie_insert trie_new (B "LOL") (B "HEHE"))) None None false None None None true false) = Some (B "LC_ALL='en_US.utf8' blogc -D FOO='BAR' -D BAR='BAZ' -D LOL='HEHE' -D MAKE_ENV_DEV=1 -D MAKE_ENV='dev'") /\
  Some (build_blogc_cmd (B "blogc") (Some (Settings (trie_insert (trie_insert trie_new (B "FOO") (B "BAR")) (B "BAR") (B "BAZ")) (trie_insert trie_new (B "locale") (B "en_US.utf8")) None None None None)) None None None false None None None true false) = Some (B "LC_ALL='en_US.utf8' blogc -D FOO='BAR' -D BAR='BAZ' -D MAKE_ENV_DEV=1 -D MAKE_ENV='dev'").
Proof. tests. Qed.

Example test_build_blogc_cmd_with_settings_and_tags :
  Some (build_blogc_cmd (B "blogc") (Some (Settings (trie_insert (trie_insert trie_new (B "FOO") (B "BAR")) (B "BAR") (B "BAZ")) (trie_insert trie_new (B "locale") (B "en_US.utf8")) None None None (option_map (fun s => str_split s " "%char 0) (Some (B "asd foo bar"))))) (Some (trie_insert trie_new (B "LOL") (B "HEHE"))) (Some (trie_insert trie_new (B "ASD") (B "QWE"))) None true None (Some (B "main.tmpl")) (Some (B "foo.html")) true true) = Some (B "LC_ALL='en_US.utf8' blogc -D MAKE_TAGS='asd foo bar' -D FOO='BAR' -D BAR='BAZ' -D LOL='HEHE' -D ASD='QWE' -D MAKE_ENV_DEV=1 -D MAKE_ENV='dev' -l -t 'main.tmpl' -o 'foo.html' -i") /\
  Some (build_blogc_cmd (B "blogc") (Some (Settings (trie_insert (trie_insert trie_new (B "FOO") (B "BAR")) (B "BAR") (B "BAZ")) (trie_insert trie_new (B "locale") (B "en_US.utf8")) None None None (option_map (fun s => str_split s " "%char 0) (Some (B "asd foo bar"))))) (Some (trie_insert trie_new (B "LOL") (B "HEHE"))) (Some (trie_insert trie_new (B "ASD") (B "QWE"))) None true (Some (B "foo.txt")) (Some (B "main.tmpl")) (Some (B "foo.html")) true true) = Some (B "LC_ALL='en_US.utf8' blogc -D MAKE_TAGS='asd foo bar' -D FOO='BAR' -D BAR='BAZ' -D LOL='HEHE' -D ASD='QWE' -D MAKE_ENV_DEV=1 -D MAKE_ENV='dev' -l -e 'foo.txt' -t 'main.tmpl' -o 'foo.html' -i") /\
  Some (build_blogc_cmd (B "blogc") (Some (Settings (trie_insert (trie_insert trie_new (B "FOO") (B "BAR")) (B "BAR") (B "BAZ")) (trie_insert trie_new (B "locale") (B "en_US.utf8")) None None None (option_map (fun s => str_split s " "%char 0) (Some (B "asd foo bar"))))) (Some (trie_insert trie_new (B "LOL") (B "HEHE"))) None None false None None None true false) = Some (B "LC_ALL='en_US.utf8' blogc -D MAKE_TAGS='asd foo bar' -D FOO='BAR' -D BAR='BAZ' -D LOL='HEHE' -D MAKE_ENV_DEV=1 -D MAKE_ENV='dev'") /\
  Some (build_blogc_cmd (B "blogc") (Some (Settings (trie_insert (trie_insert trie_new (B "FOO") (B "BAR")) (B "BAR") (B "BAZ")) (trie_insert trie_new (B "locale") (B "en_US.utf8")) None None None (option_map (fun s => str_split s " "%char 0) (Some (B "asd foo bar"))))) None None None false None None None true false) = Some (B "LC_ALL='en_US.utf8' blogc -D MAKE_TAGS='asd foo bar' -D FOO='BAR' -D BAR='BAZ' -D MAKE_ENV_DEV=1 -D MAKE_ENV='dev'").
Proof. tests. Qed.

Example test_build_blogc_cmd_without_settings :
  Some (build_blogc_cmd (B "blogc") None (Some (trie_insert trie_new (B "LOL") (B "HEHE"))) (Some (trie_insert trie_new (B "ASD") (B "QWE"))) None true None (Some (B "main.tmpl")) (Some (B "foo.html")) false true) = Some (B "blogc -D LOL='HEHE' -D ASD='QWE' -l -t 'main.tmpl' -o 'foo.html' -i") /\
  Some (build_blogc_cmd (B "blogc") None (Some (trie_insert trie_new (B "LOL") (B "HEHE"))) (Some (trie_insert trie_new (B "ASD") (B "QWE"))) None true (Some (B "foo.txt")) (Some (B "main.tmpl")) (Some (B "foo.html")) false true) = Some (B "blogc -D LOL='HEHE' -D ASD='QWE' -l -e 'foo.txt' -t 'main.tmpl' -o 'foo.html' -i") /\
  Some (build_blogc_cmd (B "blogc") None (Some (trie_insert trie_new (B "LOL") (B "HEHE"))) None None false None None None false false) = Some (B "blogc -D LOL='HEHE'") /\
  Some (build_blogc_cmd (B "blogc") None None None None false None None None false false) = Some (B "blogc").
Proof. tests. Qed.

Example test_build_blogc_cmd_print :
  Some (build_blogc_cmd (B "blogc") None (Some (trie_insert trie_new (B "LOL") (B "HEHE"))) (Some (trie_insert trie_new (B "ASD") (B "QWE"))) (Some (B "LOL")) false None None None false true) = Some (B "blogc -D LOL='HEHE' -D ASD='QWE' -p LOL -i") /\
  Some (build_blogc_cmd (B "blogc") None (Some (trie_insert trie_new (B "LOL") (B "HEHE"))) (Some (trie_insert trie_new (B "ASD") (B "QWE"))) (Some (B "LOL")) true None None None false false) = Some (B "blogc -D LOL='HEHE' -D ASD='QWE' -p LOL -l") /\
  Some (build_blogc_cmd (B "blogc") None (Some (trie_insert trie_new (B "LOL") (B "HEHE"))) None (Some (B "LOL")) false None None None false true) = Some (B "blogc -D LOL='HEHE' -p LOL -i") /\
  Some (build_blogc_cmd (B "blogc") None None None (Some (B "LOL")) false None None None false false) = Some (B "blogc -p LOL").
Proof. tests. Qed.

(* ---------- tests/blogc-make/check_atom.c ---------- *)

Example test_atom_generate_empty_file :
  isnone (ok_bytes (atom_generate (Settings trie_new (trie_insert (trie_insert (trie_insert (trie_insert trie_new (B "atom_prefix") []) (B "atom_ext") (B ".xml")) (B "post_prefix") []) (B "html_ext") (B ".html")) None None None None))) = false /\
  ok_bytes (atom_generate (Settings trie_new (trie_insert (trie_insert (trie_insert (trie_insert trie_new (B "atom_prefix") []) (B "atom_ext") (B ".xml")) (B "post_prefix") []) (B "html_ext") (B ".html")) None None None None)) = Some (B "<?xml version=""1.0"" encoding=""utf-8""?>
<feed xmlns=""http://www.w3.org/2005/Atom"">
  <title type=""text"">{{ SITE_TITLE }}{% ifdef FILTER_TAG %} - {{ FILTER_TAG }}{% endif %}</title>
  <id>{{ BASE_DOMAIN }}{{ BASE_URL }}{% ifdef FILTER_TAG %}/{{ FILTER_TAG }}{% else %}/index{% endif %}.xml</id>
  <updated>{{ DATE_FIRST_FORMATTED }}</updated>
  <link href=""{{ BASE_DOMAIN }}{{ BASE_URL }}/"" />
  <link href=""{{ BASE_DOMAIN }}{{ BASE_URL }}{% ifdef FILTER_TAG %}/{{ FILTER_TAG }}{% else %}/index{% endif %}.xml"" rel=""self"" />
  <author>
    <name>{{ AUTHOR_NAME }}</name>
    <email>{{ AUTHOR_EMAIL }}</email>
  </author>
  <subtitle type=""text"">{{ SITE_TAGLINE }}</subtitle>
  {%- block listing %}
  <entry>
    <title type=""text"">{{ TITLE }}</title>
    <id>{{ BASE_DOMAIN }}{{ BASE_URL }}/{{ FILENAME }}.html</id>
    <updated>{{ DATE_FORMATTED }}</updated>
    <published>{{ DATE_FORMATTED }}</published>
    <link href=""{{ BASE_DOMAIN }}{{ BASE_URL }}/{{ FILENAME }}.html"" />
    <author>
      <name>{{ AUTHOR_NAME }}</name>
      <email>{{ AUTHOR_EMAIL }}</email>
    </author>
    <content type=""html""><![CDATA[{{ CONTENT }}]]></content>
  </entry>
  {%- endblock %}
</feed>
").
Proof. tests. Qed.

Example test_atom_generate_empty_dir :
  isnone (ok_bytes (atom_generate (Settings trie_new (trie_insert (trie_insert (trie_insert (trie_insert trie_new (B "atom_prefix") []) (B "atom_ext") (B "/index.xml")) (B "post_prefix") []) (B "html_ext") (B "/index.html")) None None None None))) = false /\
  ok_bytes (atom_generate (Settings trie_new (trie_insert (trie_insert (trie_insert (trie_insert trie_new (B "atom_prefix") []) (B "atom_ext") (B "/index.xml")) (B "post_prefix") []) (B "html_ext") (B "/index.html")) None None None None)) = Some (B "<?xml version=""1.0"" encoding=""utf-8""?>
<feed xmlns=""http://www.w3.org/2005/Atom"">
  <title type=""text"">{{ SITE_TITLE }}{% ifdef FILTER_TAG %} - {{ FILTER_TAG }}{% endif %}</title>
  <id>{{ BASE_DOMAIN }}{{ BASE_URL }}{% ifdef FILTER_TAG %}/{{ FILTER_TAG }}{% endif %}/index.xml</id>
  <updated>{{ DATE_FIRST_FORMATTED }}</updated>
  <link href=""{{ BASE_DOMAIN }}{{ BASE_URL }}/"" />
  <link href=""{{ BASE_DOMAIN }}{{ BASE_URL }}{% ifdef FILTER_TAG %}/{{ FILTER_TAG }}{% endif %}/index.xml"" rel=""self"" />
  <author>
    <name>{{ AUTHOR_NAME }}</name>
    <email>{{ AUTHOR_EMAIL }}</email>
  </author>
  <subtitle type=""text"">{{ SITE_TAGLINE }}</subtitle>
  {%- block listing %}
  <entry>
    <title type=""text"">{{ TITLE }}</title>
    <id>{{ BASE_DOMAIN }}{{ BASE_URL }}/{{ FILENAME }}/index.html</id>
    <updated>{{ DATE_FORMATTED }}</updated>
    <published>{{ DATE_FORMATTED }}</published>
    <link href=""{{ BASE_DOMAIN }}{{ BASE_URL }}/{{ FILENAME }}/index.html"" />
    <author>
      <name>{{ AUTHOR_NAME }}</name>
      <email>{{ AUTHOR_EMAIL }}</email>
    </author>
    <content type=""html""><![CDATA[{{ CONTENT }}]]></content>
  </entry>
  {%- endblock %}
</feed>
").
Proof. tests. Qed.

Example test_atom_generate_file :
  isnone (ok_bytes (atom_generate (Settings trie_new (trie_insert (trie_insert (trie_insert (trie_insert trie_new (B "atom_prefix") (B "atom")) (B "atom_ext") (B ".xml")) (B "post_prefix") (B "post")) (B "html_ext") (B ".html")) None None None None))) = false /\
  ok_bytes (atom_generate (Settings trie_new (trie_insert (trie_insert (trie_insert (trie_insert trie_new (B "atom_prefix") (B "atom")) (B "atom_ext") (B ".xml")) (B "post_prefix") (B "post")) (B "html_ext") (B ".html")) None None None None)) = Some (B "<?xml version=""1.0"" encoding=""utf-8""?>
<feed xmlns=""http://www.w3.org/2005/Atom"">
  <title type=""text"">{{ SITE_TITLE }}{% ifdef FILTER_TAG %} - {{ FILTER_TAG }}{% endif %}</title>
  <id>{{ BASE_DOMAIN }}{{ BASE_URL }}/atom{% ifdef FILTER_TAG %}/{{ FILTER_TAG }}{% endif %}.xml</id>
  <updated>{{ DATE_FIRST_FORMATTED }}</updated>
  <link href=""{{ BASE_DOMAIN }}{{ BASE_URL }}/"" />
  <link href=""{{ BASE_DOMAIN }}{{ BASE_URL }}/atom{% ifdef FILTER_TAG %}/{{ FILTER_TAG }}{% endif %}.xml"" rel=""self"" />
  <author>
    <name>{{ AUTHOR_NAME }}</name>
    <email>{{ AUTHOR_EMAIL }}</email>
  </author>
  <subtitle type=""text"">{{ SITE_TAGLINE }}</subtitle>
  {%- block listing %}
  <entry>
    <title type=""text"">{{ TITLE }}</title>
    <id>{{ BASE_DOMAIN }}{{ BASE_URL }}/post/{{ FILENAME }}.html</id>
    <updated>{{ DATE_FORMATTED }}</updated>
    <published>{{ DATE_FORMATTED }}</published>
    <link href=""{{ BASE_DOMAIN }}{{ BASE_URL }}/post/{{ FILENAME }}.html"" />
    <author>
      <name>{{ AUTHOR_NAME }}</name>
      <email>{{ AUTHOR_EMAIL }}</email>
    </author>
    <content type=""html""><![CDATA[{{ CONTENT }}]]></content>
  </entry>
  {%- endblock %}
</feed>
").
Proof. tests. Qed.

Example test_atom_generate_dir :
  isnone (ok_bytes (atom_generate (Settings trie_new (trie_insert (trie_insert (trie_insert (trie_insert trie_new (B "atom_prefix") (B "atom")) (B "atom_ext") (B "/index.xml")) (B "post_prefix") (B "post")) (B "html_ext") (B "/index.html")) None None None None))) = false /\
  ok_bytes (atom_generate (Settings trie_new (trie_insert (trie_insert (trie_insert (trie_insert trie_new (B "atom_prefix") (B "atom")) (B "atom_ext") (B "/index.xml")) (B "post_prefix") (B "post")) (B "html_ext") (B "/index.html")) None None None None)) = Some (B "<?xml version=""1.0"" encoding=""utf-8""?>
<feed xmlns=""http://www.w3.org/2005/Atom"">
  <title type=""text"">{{ SITE_TITLE }}{% ifdef FILTER_TAG %} - {{ FILTER_TAG }}{% endif %}</title>
  <id>{{ BASE_DOMAIN }}{{ BASE_URL }}/atom{% ifdef FILTER_TAG %}/{{ FILTER_TAG }}{% endif %}/index.xml</id>
  <updated>{{ DATE_FIRST_FORMATTED }}</updated>
  <link href=""{{ BASE_DOMAIN }}{{ BASE_URL }}/"" />
  <link href=""{{ BASE_DOMAIN }}{{ BASE_URL }}/atom{% ifdef FILTER_TAG %}/{{ FILTER_TAG }}{% endif %}/index.xml"" rel=""self"" />
  <author>
    <name>{{ AUTHOR_NAME }}</name>
    <email>{{ AUTHOR_EMAIL }}</email>
  </author>
  <subtitle type=""text"">{{ SITE_TAGLINE }}</subtitle>
  {%- block listing %}
  <entry>
    <title type=""text"">{{ TITLE }}</title>
    <id>{{ BASE_DOMAIN }}{{ BASE_URL }}/post/{{ FILENAME }}/index.html</id>
    <updated>{{ DATE_FORMATTED }}</updated>
    <published>{{ DATE_FORMATTED }}</published>
    <link href=""{{ BASE_DOMAIN }}{{ BASE_URL }}/post/{{ FILENAME }}/index.html"" />
    <author>
      <name>{{ AUTHOR_NAME }}</name>
      <email>{{ AUTHOR_EMAIL }}</email>
    </author>
    <content type=""html""><![CDATA[{{ CONTENT }}]]></content>
  </entry>
  {%- endblock %}
</feed>
").
Proof. tests. Qed.

Example test_atom_generate_blog_prefix_file :
  isnone (ok_bytes (atom_generate (Settings trie_new (trie_insert (trie_insert (trie_insert (trie_insert (trie_insert trie_new (B "atom_prefix") (B "atom")) (B "atom_ext") (B ".xml")) (B "post_prefix") (B "post")) (B "html_ext") (B ".html")) (B "blog_prefix") (B "blog")) None None None None))) = false /\
  ok_bytes (atom_generate (Settings trie_new (trie_insert (trie_insert (trie_insert (trie_insert (trie_insert trie_new (B "atom_prefix") (B "atom")) (B "atom_ext") (B ".xml")) (B "post_prefix") (B "post")) (B "html_ext") (B ".html")) (B "blog_prefix") (B "blog")) None None None None)) = Some (B "<?xml version=""1.0"" encoding=""utf-8""?>
<feed xmlns=""http://www.w3.org/2005/Atom"">
  <title type=""text"">{{ SITE_TITLE }}{% ifdef FILTER_TAG %} - {{ FILTER_TAG }}{% endif %}</title>
  <id>{{ BASE_DOMAIN }}{{ BASE_URL }}/blog/atom{% ifdef FILTER_TAG %}/{{ FILTER_TAG }}{% endif %}.xml</id>
  <updated>{{ DATE_FIRST_FORMATTED }}</updated>
  <link href=""{{ BASE_DOMAIN }}{{ BASE_URL }}/"" />
  <link href=""{{ BASE_DOMAIN }}{{ BASE_URL }}/blog/atom{% ifdef FILTER_TAG %}/{{ FILTER_TAG }}{% endif %}.xml"" rel=""self"" />
  <author>
    <name>{{ AUTHOR_NAME }}</name>
    <email>{{ AUTHOR_EMAIL }}</email>
  </author>
  <subtitle type=""text"">{{ SITE_TAGLINE }}</subtitle>
  {%- block listing %}
  <entry>
    <title type=""text"">{{ TITLE }}</title>
    <id>{{ BASE_DOMAIN }}{{ BASE_URL }}/blog/post/{{ FILENAME }}.html</id>
    <updated>{{ DATE_FORMATTED }}</updated>
    <published>{{ DATE_FORMATTED }}</published>
    <link href=""{{ BASE_DOMAIN }}{{ BASE_URL }}/blog/post/{{ FILENAME }}.html"" />
    <author>
      <name>{{ AUTHOR_NAME }}</name>
      <email>{{ AUTHOR_EMAIL }}</email>
    </author>
    <content type=""html""><![CDATA[{{ CONTENT }}]]></content>
  </entry>
  {%- endblock %}
</feed>
").
Proof. tests. Qed.

Example test_atom_generate_blog_prefix_dir :
  isnone (ok_bytes (atom_generate (Settings trie_new (trie_insert (trie_insert (trie_insert (trie_insert (trie_insert trie_new (B "atom_prefix") (B "atom")) (B "atom_ext") (B "/index.xml")) (B "post_prefix") (B "post")) (B "html_ext") (B "/index.html")) (B "blog_prefix") (B "blog")) None None None None))) = false /\
  ok_bytes (atom_generate (Settings trie_new (trie_insert (trie_insert (trie_insert (trie_insert (trie_insert trie_new (B "atom_prefix") (B "atom")) (B "atom_ext") (B "/index.xml")) (B "post_prefix") (B "post")) (B "html_ext") (B "/index.html")) (B "blog_prefix") (B "blog")) None None None None)) = Some (B "<?xml version=""1.0"" encoding=""utf-8""?>
<feed xmlns=""http://www.w3.org/2005/Atom"">
  <title type=""text"">{{ SITE_TITLE }}{% ifdef FILTER_TAG %} - {{ FILTER_TAG }}{% endif %}</title>
  <id>{{ BASE_DOMAIN }}{{ BASE_URL }}/blog/atom{% ifdef FILTER_TAG %}/{{ FILTER_TAG }}{% endif %}/index.xml</id>
  <updated>{{ DATE_FIRST_FORMATTED }}</updated>
  <link href=""{{ BASE_DOMAIN }}{{ BASE_URL }}/"" />
  <link href=""{{ BASE_DOMAIN }}{{ BASE_URL }}/blog/atom{% ifdef FILTER_TAG %}/{{ FILTER_TAG }}{% endif %}/index.xml"" rel=""self"" />
  <author>
    <name>{{ AUTHOR_NAME }}</name>
    <email>{{ AUTHOR_EMAIL }}</email>
  </author>
  <subtitle type=""text"">{{ SITE_TAGLINE }}</subtitle>
  {%- block listing %}
  <entry>
    <title type=""text"">{{ TITLE }}</title>
    <id>{{ BASE_DOMAIN }}{{ BASE_URL }}/blog/post/{{ FILENAME }}/index.html</id>
    <updated>{{ DATE_FORMATTED }}</updated>
    <published>{{ DATE_FORMATTED }}</published>
    <link href=""{{ BASE_DOMAIN }}{{ BASE_URL }}/blog/post/{{ FILENAME }}/index.html"" />
    <author>
      <name>{{ AUTHOR_NAME }}</name>
      <email>{{ AUTHOR_EMAIL }}</email>
    </author>
    <content type=""html""><![CDATA[{{ CONTENT }}]]></content>
  </entry>
  {%- endblock %}
</feed>
").
Proof. tests. Qed.

(* ---------- tests/blogc-make/check_settings.c ---------- *)

Example test_settings_empty :
  isnone (set_err [] (settings_parse [])) = false /\
  isnone (set_of (settings_parse [])) = true /\
  set_err [] (settings_parse []) = Some (B "[global] key required but not found or empty: AUTHOR_NAME").
Proof. tests. Qed.

Definition test_settings_text1 : bytes := B "[settings]
content_dir = guda
main_template = foo.tmpl

[global]
BOLA = asd
GUDA = qwe
".
Definition test_settings_text2 : bytes := B "[settings]
content_dir = guda
main_template = foo.tmpl

[global]
bOLA = asd
GUDA = qwe
".
Definition test_settings_text3 : bytes := B "[settings]
content_dir = guda
main_template = foo.tmpl

[global]
BOLA = asd
GUDa = qwe
".
Example test_settings :
  isnone (set_err test_settings_text1 (settings_parse test_settings_text1)) = false /\
  isnone (set_of (settings_parse test_settings_text1)) = true /\
  set_err test_settings_text1 (settings_parse test_settings_text1) = Some (B "[global] key required but not found or empty: AUTHOR_NAME") /\
  isnone (set_err test_settings_text2 (settings_parse test_settings_text2)) = false /\
  isnone (set_of (settings_parse test_settings_text2)) = true /\
  set_err test_settings_text2 (settings_parse test_settings_text2) = Some (B "Invalid [global] key (first character must be uppercase): bOLA") /\
  isnone (set_err test_settings_text3 (settings_parse test_settings_text3)) = false /\
  isnone (set_of (settings_parse test_settings_text3)) = true /\
  set_err test_settings_text3 (settings_parse test_settings_text3) = Some (B "Invalid [global] key (must be uppercase with '_' and digits after first character): GUDa").
Proof. tests. Qed.

Definition test_settings_env_text1 : bytes := B "[settings]
content_dir = guda
main_template = foo.tmpl

[environment]
BOLA = asd
GUDA = qwe
".
Example test_settings_env :
  isnone (set_err test_settings_env_text1 (settings_parse test_settings_env_text1)) = false /\
  isnone (set_of (settings_parse test_settings_env_text1)) = true /\
  set_err test_settings_env_text1 (settings_parse test_settings_env_text1) = Some (B "[environment] key required but not found or empty: AUTHOR_NAME").
Proof. tests. Qed.

Definition test_settings2_text1 : bytes := B "[settings]
content_dir = guda
main_template = foo.tmpl

[global]
BOLA = asd
GUDA = qwe
AUTHOR_NAME = chunda
AUTHOR_EMAIL = chunda@example.com
SITE_TITLE = Fuuuuuuuuu
SITE_TAGLINE = My cool tagline
BASE_DOMAIN = http://example.com

[posts]

aaaa
bbbb
cccc
[pages]
  dddd
eeee
ffff
[tags]
gggg

  hhhh
iiii
[copy]
jjjj
kkkk
llll
".
Example test_settings2_1 :
  isnone (set_err test_settings2_text1 (settings_parse test_settings2_text1)) = true /\
  isnone (set_of (settings_parse test_settings2_text1)) = false /\
  size_ (option_map s_global (set_of (settings_parse test_settings2_text1))) = 7 /\
  lookup_ (option_map s_global (set_of (settings_parse test_settings2_text1))) (B "BOLA") = Some (B "asd") /\
  lookup_ (option_map s_global (set_of (settings_parse test_settings2_text1))) (B "GUDA") = Some (B "qwe") /\
  lookup_ (option_map s_global (set_of (settings_parse test_settings2_text1))) (B "AUTHOR_NAME") = Some (B "chunda") /\
  lookup_ (option_map s_global (set_of (settings_parse test_settings2_text1))) (B "AUTHOR_EMAIL") = Some (B "chunda@example.com") /\
  lookup_ (option_map s_global (set_of (settings_parse test_settings2_text1))) (B "SITE_TITLE") = Some (B "Fuuuuuuuuu") /\
  lookup_ (option_map s_global (set_of (settings_parse test_settings2_text1))) (B "SITE_TAGLINE") = Some (B "My cool tagline") /\
  lookup_ (option_map s_global (set_of (settings_parse test_settings2_text1))) (B "BASE_DOMAIN") = Some (B "http://example.com") /\
  size_ (option_map s_settings (set_of (settings_parse test_settings2_text1))) = 16 /\
  lookup_ (option_map s_settings (set_of (settings_parse test_settings2_text1))) (B "source_ext") = Some (B ".txt") /\
  lookup_ (option_map s_settings (set_of (settings_parse test_settings2_text1))) (B "html_ext") = Some (B "/index.html") /\
  lookup_ (option_map s_settings (set_of (settings_parse test_settings2_text1))) (B "content_dir") = Some (B "guda") /\
  lookup_ (option_map s_settings (set_of (settings_parse test_settings2_text1))) (B "template_dir") = Some (B "templates") /\
  lookup_ (option_map s_settings (set_of (settings_parse test_settings2_text1))) (B "main_template") = Some (B "foo.tmpl") /\
  lookup_ (option_map s_settings (set_of (settings_parse test_settings2_text1))) (B "date_format") = Some (B "%b %d, %Y, %I:%M %p GMT") /\
  lookup_ (option_map s_settings (set_of (settings_parse test_settings2_text1))) (B "posts_per_page") = Some (B "10") /\
  lookup_ (option_map s_settings (set_of (settings_parse test_settings2_text1))) (B "atom_prefix") = Some (B "atom") /\
  lookup_ (option_map s_settings (set_of (settings_parse test_settings2_text1))) (B "atom_ext") = Some (B ".xml") /\
  lookup_ (option_map s_settings (set_of (settings_parse test_settings2_text1))) (B "atom_posts_per_page") = Some (B "10") /\
  lookup_ (option_map s_settings (set_of (settings_parse test_settings2_text1))) (B "pagination_prefix") = Some (B "page") /\
  lookup_ (option_map s_settings (set_of (settings_parse test_settings2_text1))) (B "post_prefix") = Some (B "post") /\
  lookup_ (option_map s_settings (set_of (settings_parse test_settings2_text1))) (B "tag_prefix") = Some (B "tag").
Proof. tests. Qed.

Example test_settings2_2 :
  lookup_ (option_map s_settings (set_of (settings_parse test_settings2_text1))) (B "html_order") = Some (B "DESC") /\
  lookup_ (option_map s_settings (set_of (settings_parse test_settings2_text1))) (B "atom_order") = Some (B "DESC") /\
  lookup_ (option_map s_settings (set_of (settings_parse test_settings2_text1))) (B "index_prefix") = Some [] /\
  isnone (set_list s_posts (set_of (settings_parse test_settings2_text1))) = false /\
  at_ (set_list s_posts (set_of (settings_parse test_settings2_text1))) 0 = Some (B "aaaa") /\
  at_ (set_list s_posts (set_of (settings_parse test_settings2_text1))) 1 = Some (B "bbbb") /\
  at_ (set_list s_posts (set_of (settings_parse test_settings2_text1))) 2 = Some (B "cccc") /\
  isnone (at_ (set_list s_posts (set_of (settings_parse test_settings2_text1))) 3) = true /\
  isnone (set_list s_pages (set_of (settings_parse test_settings2_text1))) = false /\
  at_ (set_list s_pages (set_of (settings_parse test_settings2_text1))) 0 = Some (B "dddd") /\
  at_ (set_list s_pages (set_of (settings_parse test_settings2_text1))) 1 = Some (B "eeee") /\
  at_ (set_list s_pages (set_of (settings_parse test_settings2_text1))) 2 = Some (B "ffff") /\
  isnone (at_ (set_list s_pages (set_of (settings_parse test_settings2_text1))) 3) = true /\
  isnone (set_list s_copy (set_of (settings_parse test_settings2_text1))) = false /\
  at_ (set_list s_copy (set_of (settings_parse test_settings2_text1))) 0 = Some (B "jjjj") /\
  at_ (set_list s_copy (set_of (settings_parse test_settings2_text1))) 1 = Some (B "kkkk") /\
  at_ (set_list s_copy (set_of (settings_parse test_settings2_text1))) 2 = Some (B "llll") /\
  isnone (at_ (set_list s_copy (set_of (settings_parse test_settings2_text1))) 3) = true /\
  isnone (set_list s_tags (set_of (settings_parse test_settings2_text1))) = false /\
  at_ (set_list s_tags (set_of (settings_parse test_settings2_text1))) 0 = Some (B "gggg") /\
  at_ (set_list s_tags (set_of (settings_parse test_settings2_text1))) 1 = Some (B "hhhh") /\
  at_ (set_list s_tags (set_of (settings_parse test_settings2_text1))) 2 = Some (B "iiii") /\
  isnone (at_ (set_list s_tags (set_of (settings_parse test_settings2_text1))) 3) = true.
Proof. tests. Qed.

Definition test_settings_env2_text1 : bytes := B "[settings]
content_dir = guda
main_template = foo.tmpl
blog_prefix = blog

[environment]
BOLA = asd
GUDA = qwe
AUTHOR_NAME = chunda
AUTHOR_EMAIL = chunda@example.com
SITE_TITLE = Fuuuuuuuuu
SITE_TAGLINE = My cool tagline
BASE_DOMAIN = http://example.com

[posts]

aaaa
bbbb
cccc
[pages]
  dddd
eeee
ffff
[tags]
gggg

  hhhh
iiii
[copy]
jjjj
kkkk
llll
".
Example test_settings_env2_1 :
  isnone (set_err test_settings_env2_text1 (settings_parse test_settings_env2_text1)) = true /\
  isnone (set_of (settings_parse test_settings_env2_text1)) = false /\
  size_ (option_map s_global (set_of (settings_parse test_settings_env2_text1))) = 7 /\
  lookup_ (option_map s_global (set_of (settings_parse test_settings_env2_text1))) (B "BOLA") = Some (B "asd") /\
  lookup_ (option_map s_global (set_of (settings_parse test_settings_env2_text1))) (B "GUDA") = Some (B "qwe") /\
  lookup_ (option_map s_global (set_of (settings_parse test_settings_env2_text1))) (B "AUTHOR_NAME") = Some (B "chunda") /\
  lookup_ (option_map s_global (set_of (settings_parse test_settings_env2_text1))) (B "AUTHOR_EMAIL") = Some (B "chunda@example.com") /\
  lookup_ (option_map s_global (set_of (settings_parse test_settings_env2_text1))) (B "SITE_TITLE") = Some (B "Fuuuuuuuuu") /\
  lookup_ (option_map s_global (set_of (settings_parse test_settings_env2_text1))) (B "SITE_TAGLINE") = Some (B "My cool tagline") /\
  lookup_ (option_map s_global (set_of (settings_parse test_settings_env2_text1))) (B "BASE_DOMAIN") = Some (B "http://example.com") /\
  size_ (option_map s_settings (set_of (settings_parse test_settings_env2_text1))) = 17 /\
  lookup_ (option_map s_settings (set_of (settings_parse test_settings_env2_text1))) (B "source_ext") = Some (B ".txt") /\
  lookup_ (option_map s_settings (set_of (settings_parse test_settings_env2_text1))) (B "html_ext") = Some (B "/index.html") /\
  lookup_ (option_map s_settings (set_of (settings_parse test_settings_env2_text1))) (B "content_dir") = Some (B "guda") /\
  lookup_ (option_map s_settings (set_of (settings_parse test_settings_env2_text1))) (B "template_dir") = Some (B "templates") /\
  lookup_ (option_map s_settings (set_of (settings_parse test_settings_env2_text1))) (B "main_template") = Some (B "foo.tmpl") /\
  lookup_ (option_map s_settings (set_of (settings_parse test_settings_env2_text1))) (B "date_format") = Some (B "%b %d, %Y, %I:%M %p GMT") /\
  lookup_ (option_map s_settings (set_of (settings_parse test_settings_env2_text1))) (B "posts_per_page") = Some (B "10") /\
  lookup_ (option_map s_settings (set_of (settings_parse test_settings_env2_text1))) (B "atom_prefix") = Some (B "atom") /\
  lookup_ (option_map s_settings (set_of (settings_parse test_settings_env2_text1))) (B "atom_ext") = Some (B ".xml") /\
  lookup_ (option_map s_settings (set_of (settings_parse test_settings_env2_text1))) (B "atom_posts_per_page") = Some (B "10") /\
  lookup_ (option_map s_settings (set_of (settings_parse test_settings_env2_text1))) (B "pagination_prefix") = Some (B "page") /\
  lookup_ (option_map s_settings (set_of (settings_parse test_settings_env2_text1))) (B "post_prefix") = Some (B "post") /\
  lookup_ (option_map s_settings (set_of (settings_parse test_settings_env2_text1))) (B "tag_prefix") = Some (B "tag").
Proof. tests. Qed.

Example test_settings_env2_2 :
  lookup_ (option_map s_settings (set_of (settings_parse test_settings_env2_text1))) (B "html_order") = Some (B "DESC") /\
  lookup_ (option_map s_settings (set_of (settings_parse test_settings_env2_text1))) (B "atom_order") = Some (B "DESC") /\
  lookup_ (option_map s_settings (set_of (settings_parse test_settings_env2_text1))) (B "index_prefix") = Some [] /\
  lookup_ (option_map s_settings (set_of (settings_parse test_settings_env2_text1))) (B "blog_prefix") = Some (B "blog") /\
  isnone (set_list s_posts (set_of (settings_parse test_settings_env2_text1))) = false /\
  at_ (set_list s_posts (set_of (settings_parse test_settings_env2_text1))) 0 = Some (B "aaaa") /\
  at_ (set_list s_posts (set_of (settings_parse test_settings_env2_text1))) 1 = Some (B "bbbb") /\
  at_ (set_list s_posts (set_of (settings_parse test_settings_env2_text1))) 2 = Some (B "cccc") /\
  isnone (at_ (set_list s_posts (set_of (settings_parse test_settings_env2_text1))) 3) = true /\
  isnone (set_list s_pages (set_of (settings_parse test_settings_env2_text1))) = false /\
  at_ (set_list s_pages (set_of (settings_parse test_settings_env2_text1))) 0 = Some (B "dddd") /\
  at_ (set_list s_pages (set_of (settings_parse test_settings_env2_text1))) 1 = Some (B "eeee") /\
  at_ (set_list s_pages (set_of (settings_parse test_settings_env2_text1))) 2 = Some (B "ffff") /\
  isnone (at_ (set_list s_pages (set_of (settings_parse test_settings_env2_text1))) 3) = true /\
  isnone (set_list s_copy (set_of (settings_parse test_settings_env2_text1))) = false /\
  at_ (set_list s_copy (set_of (settings_parse test_settings_env2_text1))) 0 = Some (B "jjjj") /\
  at_ (set_list s_copy (set_of (settings_parse test_settings_env2_text1))) 1 = Some (B "kkkk") /\
  at_ (set_list s_copy (set_of (settings_parse test_settings_env2_text1))) 2 = Some (B "llll") /\
  isnone (at_ (set_list s_copy (set_of (settings_parse test_settings_env2_text1))) 3) = true /\
  isnone (set_list s_tags (set_of (settings_parse test_settings_env2_text1))) = false /\
  at_ (set_list s_tags (set_of (settings_parse test_settings_env2_text1))) 0 = Some (B "gggg") /\
  at_ (set_list s_tags (set_of (settings_parse test_settings_env2_text1))) 1 = Some (B "hhhh") /\
  at_ (set_list s_tags (set_of (settings_parse test_settings_env2_text1))) 2 = Some (B "iiii") /\
  isnone (at_ (set_list s_tags (set_of (settings_parse test_settings_env2_text1))) 3) = true.
Proof. tests. Qed.

Definition test_settings_copy_files_text1 : bytes := B "[settings]
content_dir = guda
main_template = foo.tmpl

[global]
BOLA = asd
GUDA = qwe
AUTHOR_NAME = chunda
AUTHOR_EMAIL = chunda@example.com
SITE_TITLE = Fuuuuuuuuu
SITE_TAGLINE = My cool tagline
BASE_DOMAIN = http://example.com

[posts]

aaaa
bbbb
cccc
[pages]
  dddd
eeee
ffff
[tags]
gggg

  hhhh
iiii
[copy_files]
jjjj
kkkk
llll
".
Example test_settings_copy_files_1 :
  isnone (set_err test_settings_copy_files_text1 (settings_parse test_settings_copy_files_text1)) = true /\
  isnone (set_of (settings_parse test_settings_copy_files_text1)) = false /\
  size_ (option_map s_global (set_of (settings_parse test_settings_copy_files_text1))) = 7 /\
  lookup_ (option_map s_global (set_of (settings_parse test_settings_copy_files_text1))) (B "BOLA") = Some (B "asd") /\
  lookup_ (option_map s_global (set_of (settings_parse test_settings_copy_files_text1))) (B "GUDA") = Some (B "qwe") /\
  lookup_ (option_map s_global (set_of (settings_parse test_settings_copy_files_text1))) (B "AUTHOR_NAME") = Some (B "chunda") /\
  lookup_ (option_map s_global (set_of (settings_parse test_settings_copy_files_text1))) (B "AUTHOR_EMAIL") = Some (B "chunda@example.com") /\
  lookup_ (option_map s_global (set_of (settings_parse test_settings_copy_files_text1))) (B "SITE_TITLE") = Some (B "Fuuuuuuuuu") /\
  lookup_ (option_map s_global (set_of (settings_parse test_settings_copy_files_text1))) (B "SITE_TAGLINE") = Some (B "My cool tagline") /\
  lookup_ (option_map s_global (set_of (settings_parse test_settings_copy_files_text1))) (B "BASE_DOMAIN") = Some (B "http://example.com") /\
  size_ (option_map s_settings (set_of (settings_parse test_settings_copy_files_text1))) = 16 /\
  lookup_ (option_map s_settings (set_of (settings_parse test_settings_copy_files_text1))) (B "source_ext") = Some (B ".txt") /\
  lookup_ (option_map s_settings (set_of (settings_parse test_settings_copy_files_text1))) (B "html_ext") = Some (B "/index.html") /\
  lookup_ (option_map s_settings (set_of (settings_parse test_settings_copy_files_text1))) (B "content_dir") = Some (B "guda") /\
  lookup_ (option_map s_settings (set_of (settings_parse test_settings_copy_files_text1))) (B "template_dir") = Some (B "templates") /\
  lookup_ (option_map s_settings (set_of (settings_parse test_settings_copy_files_text1))) (B "main_template") = Some (B "foo.tmpl") /\
  lookup_ (option_map s_settings (set_of (settings_parse test_settings_copy_files_text1))) (B "date_format") = Some (B "%b %d, %Y, %I:%M %p GMT") /\
  lookup_ (option_map s_settings (set_of (settings_parse test_settings_copy_files_text1))) (B "posts_per_page") = Some (B "10") /\
  lookup_ (option_map s_settings (set_of (settings_parse test_settings_copy_files_text1))) (B "atom_prefix") = Some (B "atom") /\
  lookup_ (option_map s_settings (set_of (settings_parse test_settings_copy_files_text1))) (B "atom_ext") = Some (B ".xml") /\
  lookup_ (option_map s_settings (set_of (settings_parse test_settings_copy_files_text1))) (B "atom_posts_per_page") = Some (B "10") /\
  lookup_ (option_map s_settings (set_of (settings_parse test_settings_copy_files_text1))) (B "pagination_prefix") = Some (B "page") /\
  lookup_ (option_map s_settings (set_of (settings_parse test_settings_copy_files_text1))) (B "post_prefix") = Some (B "post") /\
  lookup_ (option_map s_settings (set_of (settings_parse test_settings_copy_files_text1))) (B "tag_prefix") = Some (B "tag").
Proof. tests. Qed.

Example test_settings_copy_files_2 :
  lookup_ (option_map s_settings (set_of (settings_parse test_settings_copy_files_text1))) (B "html_order") = Some (B "DESC") /\
  lookup_ (option_map s_settings (set_of (settings_parse test_settings_copy_files_text1))) (B "atom_order") = Some (B "DESC") /\
  lookup_ (option_map s_settings (set_of (settings_parse test_settings_copy_files_text1))) (B "index_prefix") = Some [] /\
  isnone (set_list s_posts (set_of (settings_parse test_settings_copy_files_text1))) = false /\
  at_ (set_list s_posts (set_of (settings_parse test_settings_copy_files_text1))) 0 = Some (B "aaaa") /\
  at_ (set_list s_posts (set_of (settings_parse test_settings_copy_files_text1))) 1 = Some (B "bbbb") /\
  at_ (set_list s_posts (set_of (settings_parse test_settings_copy_files_text1))) 2 = Some (B "cccc") /\
  isnone (at_ (set_list s_posts (set_of (settings_parse test_settings_copy_files_text1))) 3) = true /\
  isnone (set_list s_pages (set_of (settings_parse test_settings_copy_files_text1))) = false /\
  at_ (set_list s_pages (set_of (settings_parse test_settings_copy_files_text1))) 0 = Some (B "dddd") /\
  at_ (set_list s_pages (set_of (settings_parse test_settings_copy_files_text1))) 1 = Some (B "eeee") /\
  at_ (set_list s_pages (set_of (settings_parse test_settings_copy_files_text1))) 2 = Some (B "ffff") /\
  isnone (at_ (set_list s_pages (set_of (settings_parse test_settings_copy_files_text1))) 3) = true /\
  isnone (set_list s_copy (set_of (settings_parse test_settings_copy_files_text1))) = false /\
  at_ (set_list s_copy (set_of (settings_parse test_settings_copy_files_text1))) 0 = Some (B "jjjj") /\
  at_ (set_list s_copy (set_of (settings_parse test_settings_copy_files_text1))) 1 = Some (B "kkkk") /\
  at_ (set_list s_copy (set_of (settings_parse test_settings_copy_files_text1))) 2 = Some (B "llll") /\
  isnone (at_ (set_list s_copy (set_of (settings_parse test_settings_copy_files_text1))) 3) = true /\
  isnone (set_list s_tags (set_of (settings_parse test_settings_copy_files_text1))) = false /\
  at_ (set_list s_tags (set_of (settings_parse test_settings_copy_files_text1))) 0 = Some (B "gggg") /\
  at_ (set_list s_tags (set_of (settings_parse test_settings_copy_files_text1))) 1 = Some (B "hhhh") /\
  at_ (set_list s_tags (set_of (settings_parse test_settings_copy_files_text1))) 2 = Some (B "iiii") /\
  isnone (at_ (set_list s_tags (set_of (settings_parse test_settings_copy_files_text1))) 3) = true.
Proof. tests. Qed.

(* ---------- tests/blogc-make/check_rules.c ---------- *)

Example test_rule_parse_args_1 :
  isnone (parse_rule_args (B ":foo=")) = false /\
  size_ (parse_rule_args (B ":foo=")) = 1 /\
  lookup_ (parse_rule_args (B ":foo=")) (B "foo") = Some [] /\
  isnone (parse_rule_args (B ":foo=bar")) = false /\
  size_ (parse_rule_args (B ":foo=bar")) = 1 /\
  lookup_ (parse_rule_args (B ":foo=bar")) (B "foo") = Some (B "bar") /\
  isnone (parse_rule_args (B ":foo=,baz=lol")) = false /\
  size_ (parse_rule_args (B ":foo=,baz=lol")) = 2 /\
  lookup_ (parse_rule_args (B ":foo=,baz=lol")) (B "foo") = Some [] /\
  lookup_ (parse_rule_args (B ":foo=,baz=lol")) (B "baz") = Some (B "lol") /\
  isnone (parse_rule_args (B ":foo=bar,baz=")) = false /\
  size_ (parse_rule_args (B ":foo=bar,baz=")) = 2 /\
  lookup_ (parse_rule_args (B ":foo=bar,baz=")) (B "foo") = Some (B "bar") /\
  lookup_ (parse_rule_args (B ":foo=bar,baz=")) (B "baz") = Some [] /\
  isnone (parse_rule_args (B ":foo=bar,baz=lol")) = false /\
  size_ (parse_rule_args (B ":foo=bar,baz=lol")) = 2 /\
  lookup_ (parse_rule_args (B ":foo=bar,baz=lol")) (B "foo") = Some (B "bar") /\
  lookup_ (parse_rule_args (B ":foo=bar,baz=lol")) (B "baz") = Some (B "lol") /\
  isnone (parse_rule_args (B ":foo=,baz=lol,asd=qwe")) = false /\
  size_ (parse_rule_args (B ":foo=,baz=lol,asd=qwe")) = 3 /\
  lookup_ (parse_rule_args (B ":foo=,baz=lol,asd=qwe")) (B "foo") = Some [] /\
  lookup_ (parse_rule_args (B ":foo=,baz=lol,asd=qwe")) (B "baz") = Some (B "lol") /\
  lookup_ (parse_rule_args (B ":foo=,baz=lol,asd=qwe")) (B "asd") = Some (B "qwe") /\
  isnone (parse_rule_args (B ":foo=bar,baz=,asd=qwe")) = false.
Proof. tests. Qed.

Example test_rule_parse_args_2 :
  size_ (parse_rule_args (B ":foo=bar,baz=,asd=qwe")) = 3 /\
  lookup_ (parse_rule_args (B ":foo=bar,baz=,asd=qwe")) (B "foo") = Some (B "bar") /\
  lookup_ (parse_rule_args (B ":foo=bar,baz=,asd=qwe")) (B "baz") = Some [] /\
  lookup_ (parse_rule_args (B ":foo=bar,baz=,asd=qwe")) (B "asd") = Some (B "qwe") /\
  isnone (parse_rule_args (B ":foo=bar,baz=lol,asd=")) = false /\
  size_ (parse_rule_args (B ":foo=bar,baz=lol,asd=")) = 3 /\
  lookup_ (parse_rule_args (B ":foo=bar,baz=lol,asd=")) (B "foo") = Some (B "bar") /\
  lookup_ (parse_rule_args (B ":foo=bar,baz=lol,asd=")) (B "baz") = Some (B "lol") /\
  lookup_ (parse_rule_args (B ":foo=bar,baz=lol,asd=")) (B "asd") = Some [] /\
  isnone (parse_rule_args (B ":foo=bar,baz=lol,asd=qwe")) = false /\
  size_ (parse_rule_args (B ":foo=bar,baz=lol,asd=qwe")) = 3 /\
  lookup_ (parse_rule_args (B ":foo=bar,baz=lol,asd=qwe")) (B "foo") = Some (B "bar") /\
  lookup_ (parse_rule_args (B ":foo=bar,baz=lol,asd=qwe")) (B "baz") = Some (B "lol") /\
  lookup_ (parse_rule_args (B ":foo=bar,baz=lol,asd=qwe")) (B "asd") = Some (B "qwe").
Proof. tests. Qed.

Example test_rule_parse_args_error :
  isnone (parse_rule_args []) = true /\
  isnone (parse_rule_args (B ":")) = true /\
  isnone (parse_rule_args (B ":asd")) = true /\
  isnone (parse_rule_args (B ":asd=foo,lol")) = true /\
  isnone (parse_rule_args (B ":asd=foo,qwe=bar,lol")) = true /\
  isnone (parse_rule_args (B "asd")) = true.
Proof. tests. Qed.
