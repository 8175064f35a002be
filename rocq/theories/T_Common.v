(* The expectations of the unit tests of the project (tests/common), as
   statements on the model. Written by a program from the C text of the tests: every
   call to a modelled function is replaced by the model, every assertion by an
   equation. Assertions on NULL arguments, on error codes and on functions that are not
   modelled are left out. These are tests of the model, not proofs of properties. *)
From Coq Require Import ZArith DecimalString.
From Verif Require Import Base Utils Trie StrBuf Utf8 ErrorPos Config.
#[local] Open Scope nat_scope.


Ltac tests := repeat match goal with |- _ /\ _ => split end; vm_compute; reflexivity.
(* assert_null *)
Definition isnone (A : Type) (x : option A) : bool := match x with None => true | Some _ => false end.
(* an array of strings, or NULL: the string at an index *)
Definition at_ (x : option (list bytes)) (n : nat) : option bytes := match x with Some l => nth_error l n | None => None end.
Definition olen (x : option (list bytes)) : nat := match x with Some l => length l | None => 0 end.
Definition ok_opt (A : Type) (x : res (option A)) : option A := match x with Ok r => r | _ => None end.
Definition num (n : nat) : bytes := B (NilEmpty.string_of_uint (Nat.to_uint n)).
(* the message of bc_error_parser, error.c 34-90 *)
Definition near (src : bytes) (at' : nat) (msg : bytes) : bytes :=
  match error_near src at' with
  | Some (line, pos, text) => msg ++ [LF] ++ B "Error occurred near line " ++ num line ++ B ", position " ++ num pos ++ B ": " ++ text
  | None => msg
  end.

Definition lookup_ (t : option (trie bytes)) (k : bytes) : option bytes := match t with Some t => trie_lookup t k | None => None end.
Definition size_ (t : option (trie bytes)) : nat := match t with Some t => trie_size t | None => 0 end.
Definition root_ (t : option (trie bytes)) : trie bytes := match t with Some t => t | None => Nil end.
Definition tkey (t : trie bytes) : option ascii := match t with Nil => None | Node k _ _ _ => Some k end.
Definition tdata (t : trie bytes) : option bytes := match t with Nil => None | Node _ d _ _ => d end.
Definition tchild (t : trie bytes) : trie bytes := match t with Nil => Nil | Node _ _ c _ => c end.
Definition tnext (t : trie bytes) : trie bytes := match t with Nil => Nil | Node _ _ _ n => n end.
Definition keyis (k : option ascii) (c : ascii) : bool := match k with Some d => d == c | None => false end.
Definition isnil (t : trie bytes) : bool := match t with Nil => true | _ => false end.
(* what str_find points to *)
Definition tail_at (s : bytes) (r : res (option nat)) : option bytes := match r with Ok (Some n) => Some (skipn n s) | _ => None end.
Definition okb (r : res bool) : bool := match r with Ok b => b | _ => false end.
(* a bc_string_t after some calls: its C string, its length, its allocated length *)
Definition sb_after (ops : list sb_op) : res strbuf := do b <- sb_new ; sb_run b ops.
Fixpoint c_string (l : list (option ascii)) : bytes := match l with Some c :: r => if c == NUL then [] else c :: c_string r | _ => [] end.
Definition sb_str (ops : list sb_op) : bytes := match sb_after ops with Ok b => c_string (sb_block b) | _ => B "?" end.
Definition sb_length (ops : list sb_op) : nat := match sb_after ops with Ok b => sb_len b | _ => 0 end.
Definition sb_room (ops : list sb_op) : nat := match sb_after ops with Ok b => sb_alloc b | _ => 0 end.
Definition cfg_of (r : res (config + cerror)) : config := match r with Ok (Datatypes.inl c) => c | _ => trie_new end.
Definition cfg_err (src : bytes) (r : res (config + cerror)) : option bytes :=
  match r with Ok (Datatypes.inr e) => Some (near src (ce_at e) (ce_msg e)) | _ => None end.

(* ---------- tests/common/check_utils.c ---------- *)

Example test_slist_append :
  Nat.leb (length ([(B "bola")])) 0 = false /\
  nth_error ([(B "bola")]) 0 = Some (B "bola") /\
  Nat.leb (length ([(B "bola")])) 1 = true /\
  Nat.leb (length ([(B "bola"); (B "guda")])) 0 = false /\
  nth_error ([(B "bola"); (B "guda")]) 0 = Some (B "bola") /\
  Nat.leb (length ([(B "bola"); (B "guda")])) 1 = false /\
  nth_error ([(B "bola"); (B "guda")]) 1 = Some (B "guda") /\
  Nat.leb (length ([(B "bola"); (B "guda")])) 2 = true.
Proof. tests. Qed.

Example test_slist_free :
  Some (B "bola") = Some (B "bola") /\
  Some (B "guda") = Some (B "guda") /\
  Some (B "chunda") = Some (B "chunda").
Proof. tests. Qed.

Example test_slist_length :
  length ([(B "bola"); (B "guda"); (B "chunda")]) = 3.
Proof. tests. Qed.

Example test_strdup :
  Some (B "bola") = Some (B "bola").
Proof. tests. Qed.

Example test_strndup :
  Some (strndup (B "bolaguda") 4) = Some (B "bola") /\
  Some (strndup (B "bolaguda") 30) = Some (B "bolaguda") /\
  Some (strndup (B "bolaguda") 8) = Some (B "bolaguda").
Proof. tests. Qed.

Example test_str_starts_with :
  starts_with (B "bolaguda") (B "bola") = true /\
  starts_with (B "bola") (B "bola") = true /\
  starts_with (B "gudabola") (B "bola") = false /\
  starts_with (B "guda") (B "bola") = false /\
  starts_with (B "bola") (B "bolaguda") = false.
Proof. tests. Qed.

Example test_str_ends_with :
  ends_with (B "bolaguda") (B "guda") = true /\
  ends_with (B "bola") (B "bola") = true /\
  ends_with (B "gudabola") (B "guda") = false /\
  ends_with (B "guda") (B "bola") = false /\
  ends_with (B "bola") (B "gudabola") = false.
Proof. tests. Qed.

Example test_str_lstrip :
  option_map lstrip (Some (B "  " ++ [TAB] ++ B "bola
  " ++ [TAB])) = Some (B "bola
  " ++ [TAB]) /\
  option_map lstrip (Some (B "guda")) = Some (B "guda") /\
  option_map lstrip (Some (B "
")) = Some [] /\
  option_map lstrip (Some ([TAB] ++ B " 
")) = Some [] /\
  option_map lstrip (Some []) = Some [] /\
  isnone (option_map lstrip None) = true.
Proof. tests. Qed.

Example test_str_rstrip :
  option_map rstrip (Some (B "  " ++ [TAB] ++ B "bola
  " ++ [TAB])) = Some (B "  " ++ [TAB] ++ B "bola") /\
  option_map rstrip (Some (B "guda")) = Some (B "guda") /\
  option_map rstrip (Some (B "
")) = Some [] /\
  option_map rstrip (Some ([TAB] ++ B " 
")) = Some [] /\
  option_map rstrip (Some []) = Some [] /\
  isnone (option_map rstrip None) = true.
Proof. tests. Qed.

Example test_str_strip :
  option_map strip (Some (B "  " ++ [TAB] ++ B "bola
  " ++ [TAB])) = Some (B "bola") /\
  option_map strip (Some (B "guda")) = Some (B "guda") /\
  option_map strip (Some (B "
")) = Some [] /\
  option_map strip (Some ([TAB] ++ B " 
")) = Some [] /\
  option_map strip (Some []) = Some [] /\
  isnone (option_map strip None) = true.
Proof. tests. Qed.

Example test_str_split :
  at_ (option_map (fun s => str_split s ":"%char 0) (Some (B "bola:guda:chunda"))) 0 = Some (B "bola") /\
  at_ (option_map (fun s => str_split s ":"%char 0) (Some (B "bola:guda:chunda"))) 1 = Some (B "guda") /\
  at_ (option_map (fun s => str_split s ":"%char 0) (Some (B "bola:guda:chunda"))) 2 = Some (B "chunda") /\
  isnone (at_ (option_map (fun s => str_split s ":"%char 0) (Some (B "bola:guda:chunda"))) 3) = true /\
  at_ (option_map (fun s => str_split s ":"%char 2) (Some (B "bola:guda:chunda"))) 0 = Some (B "bola") /\
  at_ (option_map (fun s => str_split s ":"%char 2) (Some (B "bola:guda:chunda"))) 1 = Some (B "guda:chunda") /\
  isnone (at_ (option_map (fun s => str_split s ":"%char 2) (Some (B "bola:guda:chunda"))) 2) = true /\
  at_ (option_map (fun s => str_split s ":"%char 1) (Some (B "bola:guda:chunda"))) 0 = Some (B "bola:guda:chunda") /\
  isnone (at_ (option_map (fun s => str_split s ":"%char 1) (Some (B "bola:guda:chunda"))) 1) = true /\
  isnone (at_ (option_map (fun s => str_split s ":"%char 1) (Some [])) 0) = true /\
  isnone (option_map (fun s => str_split s ":"%char 0) None) = true.
Proof. tests. Qed.

Example test_str_replace :
  Some (str_replace (B "bolao") "o"%char (B "zaz")) = Some (B "bzazlazaz") /\
  Some (str_replace (B "bolao") "b"%char (B "zaz")) = Some (B "zazolao").
Proof. tests. Qed.

Example test_str_find :
  tail_at (B "bola") (str_find (B "bola") "l"%char) = Some (B "la") /\
  tail_at (B "bo\lalala") (str_find (B "bo\lalala") "l"%char) = Some (B "lala") /\
  tail_at (B "bola") (str_find (B "bola") NUL) = Some [] /\
  isnone (tail_at (B "bola") (str_find (B "bola") "g"%char)) = true /\
  isnone (tail_at (B "bo\la") (str_find (B "bo\la") "l"%char)) = true.
Proof. tests. Qed.

Example test_str_to_bool :
  str_to_bool None = false /\
  str_to_bool (Some (B "1")) = true /\
  str_to_bool (Some (B "y")) = true /\
  str_to_bool (Some (B "Y")) = true /\
  str_to_bool (Some (B "yes")) = true /\
  str_to_bool (Some (B "YES")) = true /\
  str_to_bool (Some (B "true")) = true /\
  str_to_bool (Some (B "TRUE")) = true /\
  str_to_bool (Some (B "on")) = true /\
  str_to_bool (Some (B "ON")) = true /\
  str_to_bool (Some (B "0")) = false /\
  str_to_bool (Some (B "n")) = false /\
  str_to_bool (Some (B "N")) = false /\
  str_to_bool (Some (B "no")) = false /\
  str_to_bool (Some (B "NO")) = false /\
  str_to_bool (Some (B "false")) = false /\
  str_to_bool (Some (B "FALSE")) = false /\
  str_to_bool (Some (B "off")) = false /\
  str_to_bool (Some (B "OFF")) = false.
Proof. tests. Qed.

Example test_strv_join :
  Some (strv_join ([(B "guda"); (B "bola"); (B "chunda")]) (B ":")) = Some (B "guda:bola:chunda") /\
  Some (strv_join [] (B ":")) = Some [].
Proof. tests. Qed.

Example test_strv_length :
  olen (Some [(B "guda"); (B "bola"); (B "chunda")]) = 3 /\
  olen (Some []) = 0 /\
  olen None = 0.
Proof. tests. Qed.

Example test_string_new :
  Some (sb_str []) = Some [] /\
  sb_length [] = 0 /\
  sb_room [] = 128.
Proof. tests. Qed.

Definition test_string_append_len_text1 : bytes := B "cwlwmwxxmvjnwtidmjehzdeexbxjnjowruxjrqpgpfhmvwgqeacdjissntmbtsjidzkcwnnqhxhneolbwqlctcxmrsutolrjikpavxombpfpjyaqltgvzrjidotalcuwrwxtaxjiwaxfhfyzymtffusoqywaruxpybwggukltspqqmghzpqstvcvlqbkhquihzndnrvkaqvevazdxrewtgapkompnviiyielanoyowgqhssntyvcvqqtfjmkphywbkvzfyttaalttywhqcechgrwzaglzogwjvqncjzodaqsblcbpcdpxmrtctzginvtkckhqvdplgjvbzrnarcxjrsbcsbfvpylgjznsuhxcxoqbpxowmsrgwimxjgyzwwmryqvstwzkglgeezelvpvkwefqdatnddxntikgoqlidfnmdhxzevqzlzubvyleeksdirmmttqthhkvfjggznpmarcamacpvwsrnrftzfeyasjpxoevyptpdnqokswiondusnuymqwaryrmdgscbnuilxtypuynckancsfnwtgokxhegoifakimxbbafkeannglvsxprqzfekdinssqymtfexf".
Example test_string_append_len :
  Some (sb_str [OpLen (B "guda") 4]) = Some (B "guda") /\
  sb_length [OpLen (B "guda") 4] = 4 /\
  sb_room [OpLen (B "guda") 4] = 128 /\
  Some (sb_str [OpLen (B "guda") 4; OpLen (B "bola") 4]) = Some (B "gudabola") /\
  sb_length [OpLen (B "guda") 4; OpLen (B "bola") 4] = 8 /\
  sb_room [OpLen (B "guda") 4; OpLen (B "bola") 4] = 128 /\
  Some (sb_str [OpLen (B "guda") 3; OpLen (B "bola") 4]) = Some (B "gudbola") /\
  sb_length [OpLen (B "guda") 3; OpLen (B "bola") 4] = 7 /\
  sb_room [OpLen (B "guda") 3; OpLen (B "bola") 4] = 128 /\
  Some (sb_str [OpLen (B "guda") 4; OpLen test_string_append_len_text1 600; OpLen [] 0; OpLen test_string_append_len_text1 600]) = Some (B "gudacwlwmwxxmvjnwtidmjehzdeexbxjnjowruxjrqpgpfhmvwgqeacdjissntmbtsjidzkcwnnqhxhneolbwqlctcxmrsutolrjikpavxombpfpjyaqltgvzrjidotalcuwrwxtaxjiwaxfhfyzymtffusoqywaruxpybwggukltspqqmghzpqstvcvlqbkhquihzndnrvkaqvevazdxrewtgapkompnviiyielanoyowgqhssntyvcvqqtfjmkphywbkvzfyttaalttywhqcechgrwzaglzogwjvqncjzodaqsblcbpcdpxmrtctzginvtkckhqvdplgjvbzrnarcxjrsbcsbfvpylgjznsuhxcxoqbpxowmsrgwimxjgyzwwmryqvstwzkglgeezelvpvkwefqdatnddxntikgoqlidfnmdhxzevqzlzubvyleeksdirmmttqthhkvfjggznpmarcamacpvwsrnrftzfeyasjpxoevyptpdnqokswiondusnuymqwaryrmdgscbnuilxtypuynckancsfnwtgokxhegoifakimxbbafkeannglvsxprqzfekdinssqymtfexfcwlwmwxxmvjnwtidmjehzdeexbxjnjowruxjrqpgpfhmvwgqeacdjissntmbtsjidzkcwnnqhxhneolbwqlctcxmrsutolrjikpavxombpfpjyaqltgvzrjidotalcuwrwxtaxjiwaxfhfyzymtffusoqywaruxpybwggukltspqqmghzpqstvcvlqbkhquihzndnrvkaqvevazdxrewtgapkompnviiyielanoyowgqhssntyvcvqqtfjmkphywbkvzfyttaalttywhqcechgrwzaglzogwjvqncjzodaqsblcbpcdpxmrtctzginvtkckhqvdplgjvbzrnarcxjrsbcsbfvpylgjznsuhxcxoqbpxowmsrgwimxjgyzwwmryqvstwzkglgeezelvpvkwefqdatnddxntikgoqlidfnmdhxzevqzlzubvyleeksdirmmttqthhkvfjggznpmarcamacpvwsrnrftzfeyasjpxoevyptpdnqokswiondusnuymqwaryrmdgscbnuilxtypuynckancsfnwtgokxhegoifakimxbbafkeannglvsxprqzfekdinssqymtfexf") /\
  sb_length [OpLen (B "guda") 4; OpLen test_string_append_len_text1 600; OpLen [] 0; OpLen test_string_append_len_text1 600] = 1204 /\
  sb_room [OpLen (B "guda") 4; OpLen test_string_append_len_text1 600; OpLen [] 0; OpLen test_string_append_len_text1 600] = (128 * 10) /\
  Some (sb_str [OpLen [] 0]) = Some [] /\
  sb_length [OpLen [] 0] = 0 /\
  sb_room [OpLen [] 0] = 128.
Proof. tests. Qed.

Definition test_string_append_text1 : bytes := B "cwlwmwxxmvjnwtidmjehzdeexbxjnjowruxjrqpgpfhmvwgqeacdjissntmbtsjidzkcwnnqhxhneolbwqlctcxmrsutolrjikpavxombpfpjyaqltgvzrjidotalcuwrwxtaxjiwaxfhfyzymtffusoqywaruxpybwggukltspqqmghzpqstvcvlqbkhquihzndnrvkaqvevazdxrewtgapkompnviiyielanoyowgqhssntyvcvqqtfjmkphywbkvzfyttaalttywhqcechgrwzaglzogwjvqncjzodaqsblcbpcdpxmrtctzginvtkckhqvdplgjvbzrnarcxjrsbcsbfvpylgjznsuhxcxoqbpxowmsrgwimxjgyzwwmryqvstwzkglgeezelvpvkwefqdatnddxntikgoqlidfnmdhxzevqzlzubvyleeksdirmmttqthhkvfjggznpmarcamacpvwsrnrftzfeyasjpxoevyptpdnqokswiondusnuymqwaryrmdgscbnuilxtypuynckancsfnwtgokxhegoifakimxbbafkeannglvsxprqzfekdinssqymtfexf".
Example test_string_append :
  Some (sb_str [OpStr (Some (B "guda"))]) = Some (B "guda") /\
  sb_length [OpStr (Some (B "guda"))] = 4 /\
  sb_room [OpStr (Some (B "guda"))] = 128 /\
  Some (sb_str [OpStr (Some (B "guda")); OpStr (Some (B "bola"))]) = Some (B "gudabola") /\
  sb_length [OpStr (Some (B "guda")); OpStr (Some (B "bola"))] = 8 /\
  sb_room [OpStr (Some (B "guda")); OpStr (Some (B "bola"))] = 128 /\
  Some (sb_str [OpStr (Some (B "guda")); OpStr (Some test_string_append_text1); OpStr None; OpStr (Some test_string_append_text1)]) = Some (B "gudacwlwmwxxmvjnwtidmjehzdeexbxjnjowruxjrqpgpfhmvwgqeacdjissntmbtsjidzkcwnnqhxhneolbwqlctcxmrsutolrjikpavxombpfpjyaqltgvzrjidotalcuwrwxtaxjiwaxfhfyzymtffusoqywaruxpybwggukltspqqmghzpqstvcvlqbkhquihzndnrvkaqvevazdxrewtgapkompnviiyielanoyowgqhssntyvcvqqtfjmkphywbkvzfyttaalttywhqcechgrwzaglzogwjvqncjzodaqsblcbpcdpxmrtctzginvtkckhqvdplgjvbzrnarcxjrsbcsbfvpylgjznsuhxcxoqbpxowmsrgwimxjgyzwwmryqvstwzkglgeezelvpvkwefqdatnddxntikgoqlidfnmdhxzevqzlzubvyleeksdirmmttqthhkvfjggznpmarcamacpvwsrnrftzfeyasjpxoevyptpdnqokswiondusnuymqwaryrmdgscbnuilxtypuynckancsfnwtgokxhegoifakimxbbafkeannglvsxprqzfekdinssqymtfexfcwlwmwxxmvjnwtidmjehzdeexbxjnjowruxjrqpgpfhmvwgqeacdjissntmbtsjidzkcwnnqhxhneolbwqlctcxmrsutolrjikpavxombpfpjyaqltgvzrjidotalcuwrwxtaxjiwaxfhfyzymtffusoqywaruxpybwggukltspqqmghzpqstvcvlqbkhquihzndnrvkaqvevazdxrewtgapkompnviiyielanoyowgqhssntyvcvqqtfjmkphywbkvzfyttaalttywhqcechgrwzaglzogwjvqncjzodaqsblcbpcdpxmrtctzginvtkckhqvdplgjvbzrnarcxjrsbcsbfvpylgjznsuhxcxoqbpxowmsrgwimxjgyzwwmryqvstwzkglgeezelvpvkwefqdatnddxntikgoqlidfnmdhxzevqzlzubvyleeksdirmmttqthhkvfjggznpmarcamacpvwsrnrftzfeyasjpxoevyptpdnqokswiondusnuymqwaryrmdgscbnuilxtypuynckancsfnwtgokxhegoifakimxbbafkeannglvsxprqzfekdinssqymtfexf") /\
  sb_length [OpStr (Some (B "guda")); OpStr (Some test_string_append_text1); OpStr None; OpStr (Some test_string_append_text1)] = 1204 /\
  sb_room [OpStr (Some (B "guda")); OpStr (Some test_string_append_text1); OpStr None; OpStr (Some test_string_append_text1)] = (128 * 10) /\
  Some (sb_str [OpStr None]) = Some [] /\
  sb_length [OpStr None] = 0 /\
  sb_room [OpStr None] = 128.
Proof. tests. Qed.

Example test_string_append_escaped :
  Some (sb_str [OpEscaped None]) = Some [] /\
  sb_length [OpEscaped None] = 0 /\
  sb_room [OpEscaped None] = 128 /\
  Some (sb_str [OpEscaped None; OpEscaped (Some (B "foo \a bar \\ lol"))]) = Some (B "foo a bar \ lol") /\
  sb_length [OpEscaped None; OpEscaped (Some (B "foo \a bar \\ lol"))] = 15 /\
  sb_room [OpEscaped None; OpEscaped (Some (B "foo \a bar \\ lol"))] = 128.
Proof. tests. Qed.

Example test_trie_new :
  isnil (root_ (Some trie_new)) = true.
Proof. tests. Qed.

Example test_trie_insert_1 :
  keyis (tkey (root_ (Some (trie_insert trie_new (B "bola") (B "guda"))))) "b"%char = true /\
  isnone (tdata (root_ (Some (trie_insert trie_new (B "bola") (B "guda"))))) = true /\
  keyis (tkey (tchild (root_ (Some (trie_insert trie_new (B "bola") (B "guda")))))) "o"%char = true /\
  isnone (tdata (tchild (root_ (Some (trie_insert trie_new (B "bola") (B "guda")))))) = true /\
  keyis (tkey (tchild (tchild (root_ (Some (trie_insert trie_new (B "bola") (B "guda"))))))) "l"%char = true /\
  isnone (tdata (tchild (tchild (root_ (Some (trie_insert trie_new (B "bola") (B "guda"))))))) = true /\
  keyis (tkey (tchild (tchild (tchild (root_ (Some (trie_insert trie_new (B "bola") (B "guda")))))))) "a"%char = true /\
  isnone (tdata (tchild (tchild (tchild (root_ (Some (trie_insert trie_new (B "bola") (B "guda")))))))) = true /\
  keyis (tkey (tchild (tchild (tchild (tchild (root_ (Some (trie_insert trie_new (B "bola") (B "guda"))))))))) NUL = true /\
  tdata (tchild (tchild (tchild (tchild (root_ (Some (trie_insert trie_new (B "bola") (B "guda")))))))) = Some (B "guda") /\
  keyis (tkey (root_ (Some (trie_insert (trie_insert trie_new (B "bola") (B "guda")) (B "chu") (B "nda"))))) "b"%char = true /\
  isnone (tdata (root_ (Some (trie_insert (trie_insert trie_new (B "bola") (B "guda")) (B "chu") (B "nda"))))) = true /\
  keyis (tkey (tchild (root_ (Some (trie_insert (trie_insert trie_new (B "bola") (B "guda")) (B "chu") (B "nda")))))) "o"%char = true /\
  isnone (tdata (tchild (root_ (Some (trie_insert (trie_insert trie_new (B "bola") (B "guda")) (B "chu") (B "nda")))))) = true /\
  keyis (tkey (tchild (tchild (root_ (Some (trie_insert (trie_insert trie_new (B "bola") (B "guda")) (B "chu") (B "nda"))))))) "l"%char = true /\
  isnone (tdata (tchild (tchild (root_ (Some (trie_insert (trie_insert trie_new (B "bola") (B "guda")) (B "chu") (B "nda"))))))) = true /\
  keyis (tkey (tchild (tchild (tchild (root_ (Some (trie_insert (trie_insert trie_new (B "bola") (B "guda")) (B "chu") (B "nda")))))))) "a"%char = true /\
  isnone (tdata (tchild (tchild (tchild (root_ (Some (trie_insert (trie_insert trie_new (B "bola") (B "guda")) (B "chu") (B "nda")))))))) = true /\
  keyis (tkey (tchild (tchild (tchild (tchild (root_ (Some (trie_insert (trie_insert trie_new (B "bola") (B "guda")) (B "chu") (B "nda"))))))))) NUL = true /\
  tdata (tchild (tchild (tchild (tchild (root_ (Some (trie_insert (trie_insert trie_new (B "bola") (B "guda")) (B "chu") (B "nda")))))))) = Some (B "guda") /\
  keyis (tkey (tnext (root_ (Some (trie_insert (trie_insert trie_new (B "bola") (B "guda")) (B "chu") (B "nda")))))) "c"%char = true /\
  isnone (tdata (tnext (root_ (Some (trie_insert (trie_insert trie_new (B "bola") (B "guda")) (B "chu") (B "nda")))))) = true /\
  keyis (tkey (tchild (tnext (root_ (Some (trie_insert (trie_insert trie_new (B "bola") (B "guda")) (B "chu") (B "nda"))))))) "h"%char = true /\
  isnone (tdata (tchild (tnext (root_ (Some (trie_insert (trie_insert trie_new (B "bola") (B "guda")) (B "chu") (B "nda"))))))) = true.
Proof. tests. Qed.

Example test_trie_insert_2 :
  keyis (tkey (tchild (tchild (tnext (root_ (Some (trie_insert (trie_insert trie_new (B "bola") (B "guda")) (B "chu") (B "nda")))))))) "u"%char = true /\
  isnone (tdata (tchild (tchild (tnext (root_ (Some (trie_insert (trie_insert trie_new (B "bola") (B "guda")) (B "chu") (B "nda")))))))) = true /\
  keyis (tkey (tchild (tchild (tchild (tnext (root_ (Some (trie_insert (trie_insert trie_new (B "bola") (B "guda")) (B "chu") (B "nda"))))))))) NUL = true /\
  tdata (tchild (tchild (tchild (tnext (root_ (Some (trie_insert (trie_insert trie_new (B "bola") (B "guda")) (B "chu") (B "nda")))))))) = Some (B "nda") /\
  keyis (tkey (root_ (Some (trie_insert (trie_insert (trie_insert trie_new (B "bola") (B "guda")) (B "chu") (B "nda")) (B "bote") (B "aba"))))) "b"%char = true /\
  isnone (tdata (root_ (Some (trie_insert (trie_insert (trie_insert trie_new (B "bola") (B "guda")) (B "chu") (B "nda")) (B "bote") (B "aba"))))) = true /\
  keyis (tkey (tchild (root_ (Some (trie_insert (trie_insert (trie_insert trie_new (B "bola") (B "guda")) (B "chu") (B "nda")) (B "bote") (B "aba")))))) "o"%char = true /\
  isnone (tdata (tchild (root_ (Some (trie_insert (trie_insert (trie_insert trie_new (B "bola") (B "guda")) (B "chu") (B "nda")) (B "bote") (B "aba")))))) = true /\
  keyis (tkey (tchild (tchild (root_ (Some (trie_insert (trie_insert (trie_insert trie_new (B "bola") (B "guda")) (B "chu") (B "nda")) (B "bote") (B "aba"))))))) "l"%char = true /\
  isnone (tdata (tchild (tchild (root_ (Some (trie_insert (trie_insert (trie_insert trie_new (B "bola") (B "guda")) (B "chu") (B "nda")) (B "bote") (B "aba"))))))) = true /\
  keyis (tkey (tchild (tchild (tchild (root_ (Some (trie_insert (trie_insert (trie_insert trie_new (B "bola") (B "guda")) (B "chu") (B "nda")) (B "bote") (B "aba")))))))) "a"%char = true /\
  isnone (tdata (tchild (tchild (tchild (root_ (Some (trie_insert (trie_insert (trie_insert trie_new (B "bola") (B "guda")) (B "chu") (B "nda")) (B "bote") (B "aba")))))))) = true /\
  keyis (tkey (tchild (tchild (tchild (tchild (root_ (Some (trie_insert (trie_insert (trie_insert trie_new (B "bola") (B "guda")) (B "chu") (B "nda")) (B "bote") (B "aba"))))))))) NUL = true /\
  tdata (tchild (tchild (tchild (tchild (root_ (Some (trie_insert (trie_insert (trie_insert trie_new (B "bola") (B "guda")) (B "chu") (B "nda")) (B "bote") (B "aba")))))))) = Some (B "guda") /\
  keyis (tkey (tnext (root_ (Some (trie_insert (trie_insert (trie_insert trie_new (B "bola") (B "guda")) (B "chu") (B "nda")) (B "bote") (B "aba")))))) "c"%char = true /\
  isnone (tdata (tnext (root_ (Some (trie_insert (trie_insert (trie_insert trie_new (B "bola") (B "guda")) (B "chu") (B "nda")) (B "bote") (B "aba")))))) = true /\
  keyis (tkey (tchild (tnext (root_ (Some (trie_insert (trie_insert (trie_insert trie_new (B "bola") (B "guda")) (B "chu") (B "nda")) (B "bote") (B "aba"))))))) "h"%char = true /\
  isnone (tdata (tchild (tnext (root_ (Some (trie_insert (trie_insert (trie_insert trie_new (B "bola") (B "guda")) (B "chu") (B "nda")) (B "bote") (B "aba"))))))) = true /\
  keyis (tkey (tchild (tchild (tnext (root_ (Some (trie_insert (trie_insert (trie_insert trie_new (B "bola") (B "guda")) (B "chu") (B "nda")) (B "bote") (B "aba")))))))) "u"%char = true /\
  isnone (tdata (tchild (tchild (tnext (root_ (Some (trie_insert (trie_insert (trie_insert trie_new (B "bola") (B "guda")) (B "chu") (B "nda")) (B "bote") (B "aba")))))))) = true /\
  keyis (tkey (tchild (tchild (tchild (tnext (root_ (Some (trie_insert (trie_insert (trie_insert trie_new (B "bola") (B "guda")) (B "chu") (B "nda")) (B "bote") (B "aba"))))))))) NUL = true /\
  tdata (tchild (tchild (tchild (tnext (root_ (Some (trie_insert (trie_insert (trie_insert trie_new (B "bola") (B "guda")) (B "chu") (B "nda")) (B "bote") (B "aba")))))))) = Some (B "nda") /\
  keyis (tkey (tnext (tchild (tchild (root_ (Some (trie_insert (trie_insert (trie_insert trie_new (B "bola") (B "guda")) (B "chu") (B "nda")) (B "bote") (B "aba")))))))) "t"%char = true /\
  isnone (tdata (tnext (tchild (tchild (root_ (Some (trie_insert (trie_insert (trie_insert trie_new (B "bola") (B "guda")) (B "chu") (B "nda")) (B "bote") (B "aba")))))))) = true.
Proof. tests. Qed.

Example test_trie_insert_3 :
  keyis (tkey (tchild (tnext (tchild (tchild (root_ (Some (trie_insert (trie_insert (trie_insert trie_new (B "bola") (B "guda")) (B "chu") (B "nda")) (B "bote") (B "aba"))))))))) "e"%char = true /\
  isnone (tdata (tchild (tnext (tchild (tchild (root_ (Some (trie_insert (trie_insert (trie_insert trie_new (B "bola") (B "guda")) (B "chu") (B "nda")) (B "bote") (B "aba"))))))))) = true /\
  keyis (tkey (tchild (tchild (tnext (tchild (tchild (root_ (Some (trie_insert (trie_insert (trie_insert trie_new (B "bola") (B "guda")) (B "chu") (B "nda")) (B "bote") (B "aba")))))))))) NUL = true /\
  tdata (tchild (tchild (tnext (tchild (tchild (root_ (Some (trie_insert (trie_insert (trie_insert trie_new (B "bola") (B "guda")) (B "chu") (B "nda")) (B "bote") (B "aba"))))))))) = Some (B "aba") /\
  keyis (tkey (root_ (Some (trie_insert (trie_insert (trie_insert (trie_insert trie_new (B "bola") (B "guda")) (B "chu") (B "nda")) (B "bote") (B "aba")) (B "bo") (B "haha"))))) "b"%char = true /\
  isnone (tdata (root_ (Some (trie_insert (trie_insert (trie_insert (trie_insert trie_new (B "bola") (B "guda")) (B "chu") (B "nda")) (B "bote") (B "aba")) (B "bo") (B "haha"))))) = true /\
  keyis (tkey (tchild (root_ (Some (trie_insert (trie_insert (trie_insert (trie_insert trie_new (B "bola") (B "guda")) (B "chu") (B "nda")) (B "bote") (B "aba")) (B "bo") (B "haha")))))) "o"%char = true /\
  isnone (tdata (tchild (root_ (Some (trie_insert (trie_insert (trie_insert (trie_insert trie_new (B "bola") (B "guda")) (B "chu") (B "nda")) (B "bote") (B "aba")) (B "bo") (B "haha")))))) = true /\
  keyis (tkey (tchild (tchild (root_ (Some (trie_insert (trie_insert (trie_insert (trie_insert trie_new (B "bola") (B "guda")) (B "chu") (B "nda")) (B "bote") (B "aba")) (B "bo") (B "haha"))))))) "l"%char = true /\
  isnone (tdata (tchild (tchild (root_ (Some (trie_insert (trie_insert (trie_insert (trie_insert trie_new (B "bola") (B "guda")) (B "chu") (B "nda")) (B "bote") (B "aba")) (B "bo") (B "haha"))))))) = true /\
  keyis (tkey (tchild (tchild (tchild (root_ (Some (trie_insert (trie_insert (trie_insert (trie_insert trie_new (B "bola") (B "guda")) (B "chu") (B "nda")) (B "bote") (B "aba")) (B "bo") (B "haha")))))))) "a"%char = true /\
  isnone (tdata (tchild (tchild (tchild (root_ (Some (trie_insert (trie_insert (trie_insert (trie_insert trie_new (B "bola") (B "guda")) (B "chu") (B "nda")) (B "bote") (B "aba")) (B "bo") (B "haha")))))))) = true /\
  keyis (tkey (tchild (tchild (tchild (tchild (root_ (Some (trie_insert (trie_insert (trie_insert (trie_insert trie_new (B "bola") (B "guda")) (B "chu") (B "nda")) (B "bote") (B "aba")) (B "bo") (B "haha"))))))))) NUL = true /\
  tdata (tchild (tchild (tchild (tchild (root_ (Some (trie_insert (trie_insert (trie_insert (trie_insert trie_new (B "bola") (B "guda")) (B "chu") (B "nda")) (B "bote") (B "aba")) (B "bo") (B "haha")))))))) = Some (B "guda") /\
  keyis (tkey (tnext (root_ (Some (trie_insert (trie_insert (trie_insert (trie_insert trie_new (B "bola") (B "guda")) (B "chu") (B "nda")) (B "bote") (B "aba")) (B "bo") (B "haha")))))) "c"%char = true /\
  isnone (tdata (tnext (root_ (Some (trie_insert (trie_insert (trie_insert (trie_insert trie_new (B "bola") (B "guda")) (B "chu") (B "nda")) (B "bote") (B "aba")) (B "bo") (B "haha")))))) = true /\
  keyis (tkey (tchild (tnext (root_ (Some (trie_insert (trie_insert (trie_insert (trie_insert trie_new (B "bola") (B "guda")) (B "chu") (B "nda")) (B "bote") (B "aba")) (B "bo") (B "haha"))))))) "h"%char = true /\
  isnone (tdata (tchild (tnext (root_ (Some (trie_insert (trie_insert (trie_insert (trie_insert trie_new (B "bola") (B "guda")) (B "chu") (B "nda")) (B "bote") (B "aba")) (B "bo") (B "haha"))))))) = true /\
  keyis (tkey (tchild (tchild (tnext (root_ (Some (trie_insert (trie_insert (trie_insert (trie_insert trie_new (B "bola") (B "guda")) (B "chu") (B "nda")) (B "bote") (B "aba")) (B "bo") (B "haha")))))))) "u"%char = true /\
  isnone (tdata (tchild (tchild (tnext (root_ (Some (trie_insert (trie_insert (trie_insert (trie_insert trie_new (B "bola") (B "guda")) (B "chu") (B "nda")) (B "bote") (B "aba")) (B "bo") (B "haha")))))))) = true /\
  keyis (tkey (tchild (tchild (tchild (tnext (root_ (Some (trie_insert (trie_insert (trie_insert (trie_insert trie_new (B "bola") (B "guda")) (B "chu") (B "nda")) (B "bote") (B "aba")) (B "bo") (B "haha"))))))))) NUL = true /\
  tdata (tchild (tchild (tchild (tnext (root_ (Some (trie_insert (trie_insert (trie_insert (trie_insert trie_new (B "bola") (B "guda")) (B "chu") (B "nda")) (B "bote") (B "aba")) (B "bo") (B "haha")))))))) = Some (B "nda") /\
  keyis (tkey (tnext (tchild (tchild (root_ (Some (trie_insert (trie_insert (trie_insert (trie_insert trie_new (B "bola") (B "guda")) (B "chu") (B "nda")) (B "bote") (B "aba")) (B "bo") (B "haha")))))))) "t"%char = true /\
  isnone (tdata (tnext (tchild (tchild (root_ (Some (trie_insert (trie_insert (trie_insert (trie_insert trie_new (B "bola") (B "guda")) (B "chu") (B "nda")) (B "bote") (B "aba")) (B "bo") (B "haha")))))))) = true.
Proof. tests. Qed.

Example test_trie_insert_4 :
  keyis (tkey (tchild (tnext (tchild (tchild (root_ (Some (trie_insert (trie_insert (trie_insert (trie_insert trie_new (B "bola") (B "guda")) (B "chu") (B "nda")) (B "bote") (B "aba")) (B "bo") (B "haha"))))))))) "e"%char = true /\
  isnone (tdata (tchild (tnext (tchild (tchild (root_ (Some (trie_insert (trie_insert (trie_insert (trie_insert trie_new (B "bola") (B "guda")) (B "chu") (B "nda")) (B "bote") (B "aba")) (B "bo") (B "haha"))))))))) = true /\
  keyis (tkey (tchild (tchild (tnext (tchild (tchild (root_ (Some (trie_insert (trie_insert (trie_insert (trie_insert trie_new (B "bola") (B "guda")) (B "chu") (B "nda")) (B "bote") (B "aba")) (B "bo") (B "haha")))))))))) NUL = true /\
  tdata (tchild (tchild (tnext (tchild (tchild (root_ (Some (trie_insert (trie_insert (trie_insert (trie_insert trie_new (B "bola") (B "guda")) (B "chu") (B "nda")) (B "bote") (B "aba")) (B "bo") (B "haha"))))))))) = Some (B "aba") /\
  keyis (tkey (tnext (tnext (tchild (tchild (root_ (Some (trie_insert (trie_insert (trie_insert (trie_insert trie_new (B "bola") (B "guda")) (B "chu") (B "nda")) (B "bote") (B "aba")) (B "bo") (B "haha"))))))))) NUL = true /\
  tdata (tnext (tnext (tchild (tchild (root_ (Some (trie_insert (trie_insert (trie_insert (trie_insert trie_new (B "bola") (B "guda")) (B "chu") (B "nda")) (B "bote") (B "aba")) (B "bo") (B "haha")))))))) = Some (B "haha") /\
  keyis (tkey (root_ (Some (trie_insert trie_new (B "chu") (B "nda"))))) "c"%char = true /\
  isnone (tdata (root_ (Some (trie_insert trie_new (B "chu") (B "nda"))))) = true /\
  keyis (tkey (tchild (root_ (Some (trie_insert trie_new (B "chu") (B "nda")))))) "h"%char = true /\
  isnone (tdata (tchild (root_ (Some (trie_insert trie_new (B "chu") (B "nda")))))) = true /\
  keyis (tkey (tchild (tchild (root_ (Some (trie_insert trie_new (B "chu") (B "nda"))))))) "u"%char = true /\
  isnone (tdata (tchild (tchild (root_ (Some (trie_insert trie_new (B "chu") (B "nda"))))))) = true /\
  keyis (tkey (tchild (tchild (tchild (root_ (Some (trie_insert trie_new (B "chu") (B "nda")))))))) NUL = true /\
  tdata (tchild (tchild (tchild (root_ (Some (trie_insert trie_new (B "chu") (B "nda"))))))) = Some (B "nda") /\
  keyis (tkey (root_ (Some (trie_insert (trie_insert trie_new (B "chu") (B "nda")) (B "bola") (B "guda"))))) "c"%char = true /\
  isnone (tdata (root_ (Some (trie_insert (trie_insert trie_new (B "chu") (B "nda")) (B "bola") (B "guda"))))) = true /\
  keyis (tkey (tchild (root_ (Some (trie_insert (trie_insert trie_new (B "chu") (B "nda")) (B "bola") (B "guda")))))) "h"%char = true /\
  isnone (tdata (tchild (root_ (Some (trie_insert (trie_insert trie_new (B "chu") (B "nda")) (B "bola") (B "guda")))))) = true /\
  keyis (tkey (tchild (tchild (root_ (Some (trie_insert (trie_insert trie_new (B "chu") (B "nda")) (B "bola") (B "guda"))))))) "u"%char = true /\
  isnone (tdata (tchild (tchild (root_ (Some (trie_insert (trie_insert trie_new (B "chu") (B "nda")) (B "bola") (B "guda"))))))) = true /\
  keyis (tkey (tchild (tchild (tchild (root_ (Some (trie_insert (trie_insert trie_new (B "chu") (B "nda")) (B "bola") (B "guda")))))))) NUL = true /\
  tdata (tchild (tchild (tchild (root_ (Some (trie_insert (trie_insert trie_new (B "chu") (B "nda")) (B "bola") (B "guda"))))))) = Some (B "nda") /\
  keyis (tkey (tnext (root_ (Some (trie_insert (trie_insert trie_new (B "chu") (B "nda")) (B "bola") (B "guda")))))) "b"%char = true /\
  isnone (tdata (tnext (root_ (Some (trie_insert (trie_insert trie_new (B "chu") (B "nda")) (B "bola") (B "guda")))))) = true.
Proof. tests. Qed.

Example test_trie_insert_5 :
  keyis (tkey (tchild (tnext (root_ (Some (trie_insert (trie_insert trie_new (B "chu") (B "nda")) (B "bola") (B "guda"))))))) "o"%char = true /\
  isnone (tdata (tchild (tnext (root_ (Some (trie_insert (trie_insert trie_new (B "chu") (B "nda")) (B "bola") (B "guda"))))))) = true /\
  keyis (tkey (tchild (tchild (tnext (root_ (Some (trie_insert (trie_insert trie_new (B "chu") (B "nda")) (B "bola") (B "guda")))))))) "l"%char = true /\
  isnone (tdata (tchild (tchild (tnext (root_ (Some (trie_insert (trie_insert trie_new (B "chu") (B "nda")) (B "bola") (B "guda")))))))) = true /\
  keyis (tkey (tchild (tchild (tchild (tnext (root_ (Some (trie_insert (trie_insert trie_new (B "chu") (B "nda")) (B "bola") (B "guda"))))))))) "a"%char = true /\
  isnone (tdata (tchild (tchild (tchild (tnext (root_ (Some (trie_insert (trie_insert trie_new (B "chu") (B "nda")) (B "bola") (B "guda"))))))))) = true /\
  keyis (tkey (tchild (tchild (tchild (tchild (tnext (root_ (Some (trie_insert (trie_insert trie_new (B "chu") (B "nda")) (B "bola") (B "guda")))))))))) NUL = true /\
  tdata (tchild (tchild (tchild (tchild (tnext (root_ (Some (trie_insert (trie_insert trie_new (B "chu") (B "nda")) (B "bola") (B "guda"))))))))) = Some (B "guda") /\
  keyis (tkey (root_ (Some (trie_insert (trie_insert (trie_insert trie_new (B "chu") (B "nda")) (B "bola") (B "guda")) (B "bote") (B "aba"))))) "c"%char = true /\
  isnone (tdata (root_ (Some (trie_insert (trie_insert (trie_insert trie_new (B "chu") (B "nda")) (B "bola") (B "guda")) (B "bote") (B "aba"))))) = true /\
  keyis (tkey (tchild (root_ (Some (trie_insert (trie_insert (trie_insert trie_new (B "chu") (B "nda")) (B "bola") (B "guda")) (B "bote") (B "aba")))))) "h"%char = true /\
  isnone (tdata (tchild (root_ (Some (trie_insert (trie_insert (trie_insert trie_new (B "chu") (B "nda")) (B "bola") (B "guda")) (B "bote") (B "aba")))))) = true /\
  keyis (tkey (tchild (tchild (root_ (Some (trie_insert (trie_insert (trie_insert trie_new (B "chu") (B "nda")) (B "bola") (B "guda")) (B "bote") (B "aba"))))))) "u"%char = true /\
  isnone (tdata (tchild (tchild (root_ (Some (trie_insert (trie_insert (trie_insert trie_new (B "chu") (B "nda")) (B "bola") (B "guda")) (B "bote") (B "aba"))))))) = true /\
  keyis (tkey (tchild (tchild (tchild (root_ (Some (trie_insert (trie_insert (trie_insert trie_new (B "chu") (B "nda")) (B "bola") (B "guda")) (B "bote") (B "aba")))))))) NUL = true /\
  tdata (tchild (tchild (tchild (root_ (Some (trie_insert (trie_insert (trie_insert trie_new (B "chu") (B "nda")) (B "bola") (B "guda")) (B "bote") (B "aba"))))))) = Some (B "nda") /\
  keyis (tkey (tnext (root_ (Some (trie_insert (trie_insert (trie_insert trie_new (B "chu") (B "nda")) (B "bola") (B "guda")) (B "bote") (B "aba")))))) "b"%char = true /\
  isnone (tdata (tnext (root_ (Some (trie_insert (trie_insert (trie_insert trie_new (B "chu") (B "nda")) (B "bola") (B "guda")) (B "bote") (B "aba")))))) = true /\
  keyis (tkey (tchild (tnext (root_ (Some (trie_insert (trie_insert (trie_insert trie_new (B "chu") (B "nda")) (B "bola") (B "guda")) (B "bote") (B "aba"))))))) "o"%char = true /\
  isnone (tdata (tchild (tnext (root_ (Some (trie_insert (trie_insert (trie_insert trie_new (B "chu") (B "nda")) (B "bola") (B "guda")) (B "bote") (B "aba"))))))) = true /\
  keyis (tkey (tchild (tchild (tnext (root_ (Some (trie_insert (trie_insert (trie_insert trie_new (B "chu") (B "nda")) (B "bola") (B "guda")) (B "bote") (B "aba")))))))) "l"%char = true /\
  isnone (tdata (tchild (tchild (tnext (root_ (Some (trie_insert (trie_insert (trie_insert trie_new (B "chu") (B "nda")) (B "bola") (B "guda")) (B "bote") (B "aba")))))))) = true /\
  keyis (tkey (tchild (tchild (tchild (tnext (root_ (Some (trie_insert (trie_insert (trie_insert trie_new (B "chu") (B "nda")) (B "bola") (B "guda")) (B "bote") (B "aba"))))))))) "a"%char = true /\
  isnone (tdata (tchild (tchild (tchild (tnext (root_ (Some (trie_insert (trie_insert (trie_insert trie_new (B "chu") (B "nda")) (B "bola") (B "guda")) (B "bote") (B "aba"))))))))) = true.
Proof. tests. Qed.

Example test_trie_insert_6 :
  keyis (tkey (tchild (tchild (tchild (tchild (tnext (root_ (Some (trie_insert (trie_insert (trie_insert trie_new (B "chu") (B "nda")) (B "bola") (B "guda")) (B "bote") (B "aba")))))))))) NUL = true /\
  tdata (tchild (tchild (tchild (tchild (tnext (root_ (Some (trie_insert (trie_insert (trie_insert trie_new (B "chu") (B "nda")) (B "bola") (B "guda")) (B "bote") (B "aba"))))))))) = Some (B "guda") /\
  keyis (tkey (tnext (tchild (tchild (tnext (root_ (Some (trie_insert (trie_insert (trie_insert trie_new (B "chu") (B "nda")) (B "bola") (B "guda")) (B "bote") (B "aba"))))))))) "t"%char = true /\
  isnone (tdata (tnext (tchild (tchild (tnext (root_ (Some (trie_insert (trie_insert (trie_insert trie_new (B "chu") (B "nda")) (B "bola") (B "guda")) (B "bote") (B "aba"))))))))) = true /\
  keyis (tkey (tchild (tnext (tchild (tchild (tnext (root_ (Some (trie_insert (trie_insert (trie_insert trie_new (B "chu") (B "nda")) (B "bola") (B "guda")) (B "bote") (B "aba")))))))))) "e"%char = true /\
  isnone (tdata (tchild (tnext (tchild (tchild (tnext (root_ (Some (trie_insert (trie_insert (trie_insert trie_new (B "chu") (B "nda")) (B "bola") (B "guda")) (B "bote") (B "aba")))))))))) = true /\
  keyis (tkey (tchild (tchild (tnext (tchild (tchild (tnext (root_ (Some (trie_insert (trie_insert (trie_insert trie_new (B "chu") (B "nda")) (B "bola") (B "guda")) (B "bote") (B "aba"))))))))))) NUL = true /\
  tdata (tchild (tchild (tnext (tchild (tchild (tnext (root_ (Some (trie_insert (trie_insert (trie_insert trie_new (B "chu") (B "nda")) (B "bola") (B "guda")) (B "bote") (B "aba")))))))))) = Some (B "aba") /\
  keyis (tkey (root_ (Some (trie_insert (trie_insert (trie_insert (trie_insert trie_new (B "chu") (B "nda")) (B "bola") (B "guda")) (B "bote") (B "aba")) (B "bo") (B "haha"))))) "c"%char = true /\
  isnone (tdata (root_ (Some (trie_insert (trie_insert (trie_insert (trie_insert trie_new (B "chu") (B "nda")) (B "bola") (B "guda")) (B "bote") (B "aba")) (B "bo") (B "haha"))))) = true /\
  keyis (tkey (tchild (root_ (Some (trie_insert (trie_insert (trie_insert (trie_insert trie_new (B "chu") (B "nda")) (B "bola") (B "guda")) (B "bote") (B "aba")) (B "bo") (B "haha")))))) "h"%char = true /\
  isnone (tdata (tchild (root_ (Some (trie_insert (trie_insert (trie_insert (trie_insert trie_new (B "chu") (B "nda")) (B "bola") (B "guda")) (B "bote") (B "aba")) (B "bo") (B "haha")))))) = true /\
  keyis (tkey (tchild (tchild (root_ (Some (trie_insert (trie_insert (trie_insert (trie_insert trie_new (B "chu") (B "nda")) (B "bola") (B "guda")) (B "bote") (B "aba")) (B "bo") (B "haha"))))))) "u"%char = true /\
  isnone (tdata (tchild (tchild (root_ (Some (trie_insert (trie_insert (trie_insert (trie_insert trie_new (B "chu") (B "nda")) (B "bola") (B "guda")) (B "bote") (B "aba")) (B "bo") (B "haha"))))))) = true /\
  keyis (tkey (tchild (tchild (tchild (root_ (Some (trie_insert (trie_insert (trie_insert (trie_insert trie_new (B "chu") (B "nda")) (B "bola") (B "guda")) (B "bote") (B "aba")) (B "bo") (B "haha")))))))) NUL = true /\
  tdata (tchild (tchild (tchild (root_ (Some (trie_insert (trie_insert (trie_insert (trie_insert trie_new (B "chu") (B "nda")) (B "bola") (B "guda")) (B "bote") (B "aba")) (B "bo") (B "haha"))))))) = Some (B "nda") /\
  keyis (tkey (tnext (root_ (Some (trie_insert (trie_insert (trie_insert (trie_insert trie_new (B "chu") (B "nda")) (B "bola") (B "guda")) (B "bote") (B "aba")) (B "bo") (B "haha")))))) "b"%char = true /\
  isnone (tdata (tnext (root_ (Some (trie_insert (trie_insert (trie_insert (trie_insert trie_new (B "chu") (B "nda")) (B "bola") (B "guda")) (B "bote") (B "aba")) (B "bo") (B "haha")))))) = true /\
  keyis (tkey (tchild (tnext (root_ (Some (trie_insert (trie_insert (trie_insert (trie_insert trie_new (B "chu") (B "nda")) (B "bola") (B "guda")) (B "bote") (B "aba")) (B "bo") (B "haha"))))))) "o"%char = true /\
  isnone (tdata (tchild (tnext (root_ (Some (trie_insert (trie_insert (trie_insert (trie_insert trie_new (B "chu") (B "nda")) (B "bola") (B "guda")) (B "bote") (B "aba")) (B "bo") (B "haha"))))))) = true /\
  keyis (tkey (tchild (tchild (tnext (root_ (Some (trie_insert (trie_insert (trie_insert (trie_insert trie_new (B "chu") (B "nda")) (B "bola") (B "guda")) (B "bote") (B "aba")) (B "bo") (B "haha")))))))) "l"%char = true /\
  isnone (tdata (tchild (tchild (tnext (root_ (Some (trie_insert (trie_insert (trie_insert (trie_insert trie_new (B "chu") (B "nda")) (B "bola") (B "guda")) (B "bote") (B "aba")) (B "bo") (B "haha")))))))) = true /\
  keyis (tkey (tchild (tchild (tchild (tnext (root_ (Some (trie_insert (trie_insert (trie_insert (trie_insert trie_new (B "chu") (B "nda")) (B "bola") (B "guda")) (B "bote") (B "aba")) (B "bo") (B "haha"))))))))) "a"%char = true /\
  isnone (tdata (tchild (tchild (tchild (tnext (root_ (Some (trie_insert (trie_insert (trie_insert (trie_insert trie_new (B "chu") (B "nda")) (B "bola") (B "guda")) (B "bote") (B "aba")) (B "bo") (B "haha"))))))))) = true.
Proof. tests. Qed.

Example test_trie_insert_7 :
  keyis (tkey (tchild (tchild (tchild (tchild (tnext (root_ (Some (trie_insert (trie_insert (trie_insert (trie_insert trie_new (B "chu") (B "nda")) (B "bola") (B "guda")) (B "bote") (B "aba")) (B "bo") (B "haha")))))))))) NUL = true /\
  tdata (tchild (tchild (tchild (tchild (tnext (root_ (Some (trie_insert (trie_insert (trie_insert (trie_insert trie_new (B "chu") (B "nda")) (B "bola") (B "guda")) (B "bote") (B "aba")) (B "bo") (B "haha"))))))))) = Some (B "guda") /\
  keyis (tkey (tnext (tchild (tchild (tnext (root_ (Some (trie_insert (trie_insert (trie_insert (trie_insert trie_new (B "chu") (B "nda")) (B "bola") (B "guda")) (B "bote") (B "aba")) (B "bo") (B "haha"))))))))) "t"%char = true /\
  isnone (tdata (tnext (tchild (tchild (tnext (root_ (Some (trie_insert (trie_insert (trie_insert (trie_insert trie_new (B "chu") (B "nda")) (B "bola") (B "guda")) (B "bote") (B "aba")) (B "bo") (B "haha"))))))))) = true /\
  keyis (tkey (tchild (tnext (tchild (tchild (tnext (root_ (Some (trie_insert (trie_insert (trie_insert (trie_insert trie_new (B "chu") (B "nda")) (B "bola") (B "guda")) (B "bote") (B "aba")) (B "bo") (B "haha")))))))))) "e"%char = true /\
  isnone (tdata (tchild (tnext (tchild (tchild (tnext (root_ (Some (trie_insert (trie_insert (trie_insert (trie_insert trie_new (B "chu") (B "nda")) (B "bola") (B "guda")) (B "bote") (B "aba")) (B "bo") (B "haha")))))))))) = true /\
  keyis (tkey (tchild (tchild (tnext (tchild (tchild (tnext (root_ (Some (trie_insert (trie_insert (trie_insert (trie_insert trie_new (B "chu") (B "nda")) (B "bola") (B "guda")) (B "bote") (B "aba")) (B "bo") (B "haha"))))))))))) NUL = true /\
  tdata (tchild (tchild (tnext (tchild (tchild (tnext (root_ (Some (trie_insert (trie_insert (trie_insert (trie_insert trie_new (B "chu") (B "nda")) (B "bola") (B "guda")) (B "bote") (B "aba")) (B "bo") (B "haha")))))))))) = Some (B "aba") /\
  keyis (tkey (tnext (tnext (tchild (tchild (tnext (root_ (Some (trie_insert (trie_insert (trie_insert (trie_insert trie_new (B "chu") (B "nda")) (B "bola") (B "guda")) (B "bote") (B "aba")) (B "bo") (B "haha")))))))))) NUL = true /\
  tdata (tnext (tnext (tchild (tchild (tnext (root_ (Some (trie_insert (trie_insert (trie_insert (trie_insert trie_new (B "chu") (B "nda")) (B "bola") (B "guda")) (B "bote") (B "aba")) (B "bo") (B "haha"))))))))) = Some (B "haha").
Proof. tests. Qed.

Example test_trie_insert_duplicated :
  keyis (tkey (root_ (Some (trie_insert trie_new (B "bola") (B "guda"))))) "b"%char = true /\
  isnone (tdata (root_ (Some (trie_insert trie_new (B "bola") (B "guda"))))) = true /\
  keyis (tkey (tchild (root_ (Some (trie_insert trie_new (B "bola") (B "guda")))))) "o"%char = true /\
  isnone (tdata (tchild (root_ (Some (trie_insert trie_new (B "bola") (B "guda")))))) = true /\
  keyis (tkey (tchild (tchild (root_ (Some (trie_insert trie_new (B "bola") (B "guda"))))))) "l"%char = true /\
  isnone (tdata (tchild (tchild (root_ (Some (trie_insert trie_new (B "bola") (B "guda"))))))) = true /\
  keyis (tkey (tchild (tchild (tchild (root_ (Some (trie_insert trie_new (B "bola") (B "guda")))))))) "a"%char = true /\
  isnone (tdata (tchild (tchild (tchild (root_ (Some (trie_insert trie_new (B "bola") (B "guda")))))))) = true /\
  keyis (tkey (tchild (tchild (tchild (tchild (root_ (Some (trie_insert trie_new (B "bola") (B "guda"))))))))) NUL = true /\
  tdata (tchild (tchild (tchild (tchild (root_ (Some (trie_insert trie_new (B "bola") (B "guda")))))))) = Some (B "guda") /\
  keyis (tkey (root_ (Some (trie_insert (trie_insert trie_new (B "bola") (B "guda")) (B "bola") (B "asdf"))))) "b"%char = true /\
  isnone (tdata (root_ (Some (trie_insert (trie_insert trie_new (B "bola") (B "guda")) (B "bola") (B "asdf"))))) = true /\
  keyis (tkey (tchild (root_ (Some (trie_insert (trie_insert trie_new (B "bola") (B "guda")) (B "bola") (B "asdf")))))) "o"%char = true /\
  isnone (tdata (tchild (root_ (Some (trie_insert (trie_insert trie_new (B "bola") (B "guda")) (B "bola") (B "asdf")))))) = true /\
  keyis (tkey (tchild (tchild (root_ (Some (trie_insert (trie_insert trie_new (B "bola") (B "guda")) (B "bola") (B "asdf"))))))) "l"%char = true /\
  isnone (tdata (tchild (tchild (root_ (Some (trie_insert (trie_insert trie_new (B "bola") (B "guda")) (B "bola") (B "asdf"))))))) = true /\
  keyis (tkey (tchild (tchild (tchild (root_ (Some (trie_insert (trie_insert trie_new (B "bola") (B "guda")) (B "bola") (B "asdf")))))))) "a"%char = true /\
  isnone (tdata (tchild (tchild (tchild (root_ (Some (trie_insert (trie_insert trie_new (B "bola") (B "guda")) (B "bola") (B "asdf")))))))) = true /\
  keyis (tkey (tchild (tchild (tchild (tchild (root_ (Some (trie_insert (trie_insert trie_new (B "bola") (B "guda")) (B "bola") (B "asdf"))))))))) NUL = true /\
  tdata (tchild (tchild (tchild (tchild (root_ (Some (trie_insert (trie_insert trie_new (B "bola") (B "guda")) (B "bola") (B "asdf")))))))) = Some (B "asdf").
Proof. tests. Qed.

Example test_trie_keep_data :
  Some (B "guda") = Some (B "guda") /\
  Some (B "nda") = Some (B "nda") /\
  Some (B "aba") = Some (B "aba") /\
  Some (B "haha") = Some (B "haha").
Proof. tests. Qed.

Example test_trie_lookup :
  lookup_ (Some (trie_insert (trie_insert (trie_insert (trie_insert trie_new (B "bola") (B "guda")) (B "chu") (B "nda")) (B "bote") (B "aba")) (B "bo") (B "haha"))) (B "bola") = Some (B "guda") /\
  lookup_ (Some (trie_insert (trie_insert (trie_insert (trie_insert trie_new (B "bola") (B "guda")) (B "chu") (B "nda")) (B "bote") (B "aba")) (B "bo") (B "haha"))) (B "chu") = Some (B "nda") /\
  lookup_ (Some (trie_insert (trie_insert (trie_insert (trie_insert trie_new (B "bola") (B "guda")) (B "chu") (B "nda")) (B "bote") (B "aba")) (B "bo") (B "haha"))) (B "bote") = Some (B "aba") /\
  lookup_ (Some (trie_insert (trie_insert (trie_insert (trie_insert trie_new (B "bola") (B "guda")) (B "chu") (B "nda")) (B "bote") (B "aba")) (B "bo") (B "haha"))) (B "bo") = Some (B "haha") /\
  isnone (lookup_ (Some (trie_insert (trie_insert (trie_insert (trie_insert trie_new (B "bola") (B "guda")) (B "chu") (B "nda")) (B "bote") (B "aba")) (B "bo") (B "haha"))) (B "arcoiro")) = true /\
  lookup_ (Some (trie_insert (trie_insert (trie_insert (trie_insert (trie_insert (trie_insert (trie_insert trie_new (B "chu") (B "nda")) (B "bola") (B "guda")) (B "bote") (B "aba")) (B "bo") (B "haha")) (B "copa") (B "bu")) (B "b") (B "c")) (B "test") (B "asd"))) (B "bola") = Some (B "guda") /\
  lookup_ (Some (trie_insert (trie_insert (trie_insert (trie_insert (trie_insert (trie_insert (trie_insert trie_new (B "chu") (B "nda")) (B "bola") (B "guda")) (B "bote") (B "aba")) (B "bo") (B "haha")) (B "copa") (B "bu")) (B "b") (B "c")) (B "test") (B "asd"))) (B "chu") = Some (B "nda") /\
  lookup_ (Some (trie_insert (trie_insert (trie_insert (trie_insert (trie_insert (trie_insert (trie_insert trie_new (B "chu") (B "nda")) (B "bola") (B "guda")) (B "bote") (B "aba")) (B "bo") (B "haha")) (B "copa") (B "bu")) (B "b") (B "c")) (B "test") (B "asd"))) (B "bote") = Some (B "aba") /\
  lookup_ (Some (trie_insert (trie_insert (trie_insert (trie_insert (trie_insert (trie_insert (trie_insert trie_new (B "chu") (B "nda")) (B "bola") (B "guda")) (B "bote") (B "aba")) (B "bo") (B "haha")) (B "copa") (B "bu")) (B "b") (B "c")) (B "test") (B "asd"))) (B "bo") = Some (B "haha") /\
  isnone (lookup_ (Some (trie_insert (trie_insert (trie_insert (trie_insert (trie_insert (trie_insert (trie_insert trie_new (B "chu") (B "nda")) (B "bola") (B "guda")) (B "bote") (B "aba")) (B "bo") (B "haha")) (B "copa") (B "bu")) (B "b") (B "c")) (B "test") (B "asd"))) (B "arcoiro")) = true /\
  isnone (lookup_ None (B "bola")) = true.
Proof. tests. Qed.

Example test_trie_size :
  size_ (Some (trie_insert (trie_insert (trie_insert (trie_insert trie_new (B "bola") (B "guda")) (B "chu") (B "nda")) (B "bote") (B "aba")) (B "bo") (B "haha"))) = 4 /\
  size_ None = 0 /\
  size_ (Some (trie_insert (trie_insert (trie_insert (trie_insert (trie_insert (trie_insert (trie_insert trie_new (B "chu") (B "nda")) (B "bola") (B "guda")) (B "bote") (B "aba")) (B "bo") (B "haha")) (B "copa") (B "bu")) (B "b") (B "c")) (B "test") (B "asd"))) = 7.
Proof. tests. Qed.

Example test_trie_inserted_after_prefix_1 :
  keyis (tkey (root_ (Some (trie_insert trie_new (B "bola") (B "guda"))))) "b"%char = true /\
  isnone (tdata (root_ (Some (trie_insert trie_new (B "bola") (B "guda"))))) = true /\
  keyis (tkey (tchild (root_ (Some (trie_insert trie_new (B "bola") (B "guda")))))) "o"%char = true /\
  isnone (tdata (tchild (root_ (Some (trie_insert trie_new (B "bola") (B "guda")))))) = true /\
  keyis (tkey (tchild (tchild (root_ (Some (trie_insert trie_new (B "bola") (B "guda"))))))) "l"%char = true /\
  isnone (tdata (tchild (tchild (root_ (Some (trie_insert trie_new (B "bola") (B "guda"))))))) = true /\
  keyis (tkey (tchild (tchild (tchild (root_ (Some (trie_insert trie_new (B "bola") (B "guda")))))))) "a"%char = true /\
  isnone (tdata (tchild (tchild (tchild (root_ (Some (trie_insert trie_new (B "bola") (B "guda")))))))) = true /\
  keyis (tkey (tchild (tchild (tchild (tchild (root_ (Some (trie_insert trie_new (B "bola") (B "guda"))))))))) NUL = true /\
  tdata (tchild (tchild (tchild (tchild (root_ (Some (trie_insert trie_new (B "bola") (B "guda")))))))) = Some (B "guda") /\
  keyis (tkey (root_ (Some (trie_insert (trie_insert trie_new (B "bola") (B "guda")) (B "bolaoo") (B "asdf"))))) "b"%char = true /\
  isnone (tdata (root_ (Some (trie_insert (trie_insert trie_new (B "bola") (B "guda")) (B "bolaoo") (B "asdf"))))) = true /\
  keyis (tkey (tchild (root_ (Some (trie_insert (trie_insert trie_new (B "bola") (B "guda")) (B "bolaoo") (B "asdf")))))) "o"%char = true /\
  isnone (tdata (tchild (root_ (Some (trie_insert (trie_insert trie_new (B "bola") (B "guda")) (B "bolaoo") (B "asdf")))))) = true /\
  keyis (tkey (tchild (tchild (root_ (Some (trie_insert (trie_insert trie_new (B "bola") (B "guda")) (B "bolaoo") (B "asdf"))))))) "l"%char = true /\
  isnone (tdata (tchild (tchild (root_ (Some (trie_insert (trie_insert trie_new (B "bola") (B "guda")) (B "bolaoo") (B "asdf"))))))) = true /\
  keyis (tkey (tchild (tchild (tchild (root_ (Some (trie_insert (trie_insert trie_new (B "bola") (B "guda")) (B "bolaoo") (B "asdf")))))))) "a"%char = true /\
  isnone (tdata (tchild (tchild (tchild (root_ (Some (trie_insert (trie_insert trie_new (B "bola") (B "guda")) (B "bolaoo") (B "asdf")))))))) = true /\
  keyis (tkey (tchild (tchild (tchild (tchild (root_ (Some (trie_insert (trie_insert trie_new (B "bola") (B "guda")) (B "bolaoo") (B "asdf"))))))))) NUL = true /\
  tdata (tchild (tchild (tchild (tchild (root_ (Some (trie_insert (trie_insert trie_new (B "bola") (B "guda")) (B "bolaoo") (B "asdf")))))))) = Some (B "guda") /\
  isnil (tnext (tchild (tchild (tchild (tchild (root_ (Some (trie_insert (trie_insert trie_new (B "bola") (B "guda")) (B "bolaoo") (B "asdf"))))))))) = false /\
  keyis (tkey (tnext (tchild (tchild (tchild (tchild (root_ (Some (trie_insert (trie_insert trie_new (B "bola") (B "guda")) (B "bolaoo") (B "asdf")))))))))) "o"%char = true /\
  isnone (tdata (tnext (tchild (tchild (tchild (tchild (root_ (Some (trie_insert (trie_insert trie_new (B "bola") (B "guda")) (B "bolaoo") (B "asdf")))))))))) = true /\
  keyis (tkey (tchild (tnext (tchild (tchild (tchild (tchild (root_ (Some (trie_insert (trie_insert trie_new (B "bola") (B "guda")) (B "bolaoo") (B "asdf"))))))))))) "o"%char = true.
Proof. tests. Qed.

Example test_trie_inserted_after_prefix_2 :
  isnone (tdata (tchild (tnext (tchild (tchild (tchild (tchild (root_ (Some (trie_insert (trie_insert trie_new (B "bola") (B "guda")) (B "bolaoo") (B "asdf"))))))))))) = true /\
  keyis (tkey (tchild (tchild (tnext (tchild (tchild (tchild (tchild (root_ (Some (trie_insert (trie_insert trie_new (B "bola") (B "guda")) (B "bolaoo") (B "asdf")))))))))))) NUL = true /\
  tdata (tchild (tchild (tnext (tchild (tchild (tchild (tchild (root_ (Some (trie_insert (trie_insert trie_new (B "bola") (B "guda")) (B "bolaoo") (B "asdf"))))))))))) = Some (B "asdf") /\
  size_ (Some (trie_insert (trie_insert trie_new (B "bola") (B "guda")) (B "bolaoo") (B "asdf"))) = 2 /\
  lookup_ (Some (trie_insert (trie_insert trie_new (B "bola") (B "guda")) (B "bolaoo") (B "asdf"))) (B "bola") = Some (B "guda") /\
  lookup_ (Some (trie_insert (trie_insert trie_new (B "bola") (B "guda")) (B "bolaoo") (B "asdf"))) (B "bolaoo") = Some (B "asdf").
Proof. tests. Qed.

Example test_shell_quote :
  Some (shell_quote None) = Some (B "''") /\
  Some (shell_quote (Some (B "!bola"))) = Some (B "''\!'bola'") /\
  Some (shell_quote (Some (B "'bola"))) = Some (B "''\''bola'") /\
  Some (shell_quote (Some (B "bo!bola"))) = Some (B "'bo'\!'bola'") /\
  Some (shell_quote (Some (B "bo'bola"))) = Some (B "'bo'\''bola'") /\
  Some (shell_quote (Some (B "bola!"))) = Some (B "'bola'\!''") /\
  Some (shell_quote (Some (B "bola'"))) = Some (B "'bola'\'''").
Proof. tests. Qed.

(* ---------- tests/common/check_utf8.c ---------- *)

Definition test_utf8_valid_text1 : bytes := B "<a href=""{{ BASE_URL }}/page/{{ PREVIOUS_PAGE }}/"">" ++ ["194"%char] ++ ["171"%char] ++ B " Newer posts</a>".
Example test_utf8_valid :
  okb (utf8_validate (firstn (length test_utf8_valid_text1) test_utf8_valid_text1)) = true /\
  okb (utf8_validate (firstn 3 (["226"%char] ++ ["130"%char] ++ ["172"%char]))) = true /\
  okb (utf8_validate (firstn 3 (["239"%char] ++ ["187"%char] ++ ["191"%char]))) = true.
Proof. tests. Qed.

Example test_utf8_invalid :
  okb (utf8_validate (firstn 4 (["255"%char] ++ ["254"%char] ++ ["172"%char] ++ B " "))) = false /\
  okb (utf8_validate (firstn 8 (["255"%char] ++ ["254"%char] ++ [NUL] ++ [NUL] ++ ["172"%char] ++ B " " ++ [NUL] ++ [NUL]))) = false /\
  okb (utf8_validate (firstn 6 (B "a" ++ ["255"%char] ++ ["254"%char] ++ ["172"%char] ++ B " b"))) = false /\
  okb (utf8_validate (firstn 10 (B "a" ++ ["255"%char] ++ ["254"%char] ++ [NUL] ++ [NUL] ++ ["172"%char] ++ B " " ++ [NUL] ++ [NUL] ++ B "b"))) = false.
Proof. tests. Qed.

Definition test_utf8_skip_bom_text1 : bytes := ["239"%char] ++ ["187"%char] ++ ["191"%char] ++ [NUL].
Definition test_utf8_skip_bom_text2 : bytes := ["239"%char] ++ ["187"%char] ++ ["191"%char] ++ B "bola" ++ [NUL].
Example test_utf8_skip_bom :
  utf8_skip_bom (firstn 2 test_utf8_skip_bom_text1) = 0 /\
  utf8_skip_bom (firstn 3 test_utf8_skip_bom_text1) = 3 /\
  Some (cstr (skipn 3 test_utf8_skip_bom_text1)) = Some [] /\
  utf8_skip_bom (firstn 7 test_utf8_skip_bom_text2) = 3 /\
  Some (cstr (skipn 3 test_utf8_skip_bom_text2)) = Some (B "bola") /\
  utf8_skip_bom (firstn 4 (B "bola")) = 0.
Proof. tests. Qed.

(* ---------- tests/common/check_error.c ---------- *)

Definition test_error_parser_text1 : bytes := B "asd 10
Error occurred near line 3, position 2: chunda".
Example test_error_parser :
  Some (near (B "bola
guda
chunda
") 11 (B "asd 10")) = Some test_error_parser_text1 /\
  Some (near (B "bola
guda
chunda") 11 (B "asd 10")) = Some test_error_parser_text1 /\
  Some (near (B "bola
guda
chunda") 0 (B "asd 10")) = Some (B "asd 10
Error occurred near line 1, position 1: bola") /\
  Some (near [] 0 (B "asd 10")) = Some (B "asd 10").
Proof. tests. Qed.

Definition test_error_parser_crlf_text1 : bytes := B "asd 10
Error occurred near line 3, position 2: chunda".
Definition test_error_parser_crlf_text2 : bytes := B "bola" ++ [CR] ++ B "
guda" ++ [CR] ++ B "
chunda".
Example test_error_parser_crlf :
  Some (near (B "bola" ++ [CR] ++ B "
guda" ++ [CR] ++ B "
chunda" ++ [CR] ++ B "
") 13 (B "asd 10")) = Some test_error_parser_crlf_text1 /\
  Some (near test_error_parser_crlf_text2 13 (B "asd 10")) = Some test_error_parser_crlf_text1 /\
  Some (near test_error_parser_crlf_text2 0 (B "asd 10")) = Some (B "asd 10
Error occurred near line 1, position 1: bola").
Proof. tests. Qed.

(* ---------- tests/common/check_config_parser.c ---------- *)

Example test_config_empty :
  isnone (cfg_err [] (config_parse [] [])) = true /\
  trie_size (cfg_of (config_parse [] [])) = 0 /\
  Some (config_get_with_default (cfg_of (config_parse [] [])) (B "bola") (B "foo") (B "bar")) = Some (B "bar").
Proof. tests. Qed.

Example test_config_section_empty :
  isnone (cfg_err (B "[foo]") (config_parse [] (B "[foo]"))) = true /\
  trie_size (cfg_of (config_parse [] (B "[foo]"))) = 1 /\
  olen (Some (config_list_sections (cfg_of (config_parse [] (B "[foo]"))))) = 1 /\
  at_ (Some (config_list_sections (cfg_of (config_parse [] (B "[foo]"))))) 0 = Some (B "foo") /\
  isnone (at_ (Some (config_list_sections (cfg_of (config_parse [] (B "[foo]"))))) 1) = true /\
  isnone (config_list_keys (cfg_of (config_parse [] (B "[foo]"))) (B "foo")) = false /\
  olen (config_list_keys (cfg_of (config_parse [] (B "[foo]"))) (B "foo")) = 0 /\
  isnone (at_ (config_list_keys (cfg_of (config_parse [] (B "[foo]"))) (B "foo")) 0) = true.
Proof. tests. Qed.

Definition test_config_section_text1 : bytes := B "[foo]" ++ [CR] ++ B "
asd = zxc" ++ [CR] ++ B "
".
Example test_config_section_1 :
  isnone (cfg_err (B "[foo]
asd = zxc") (config_parse [] (B "[foo]
asd = zxc"))) = true /\
  trie_size (cfg_of (config_parse [] (B "[foo]
asd = zxc"))) = 1 /\
  olen (Some (config_list_sections (cfg_of (config_parse [] (B "[foo]
asd = zxc"))))) = 1 /\
  at_ (Some (config_list_sections (cfg_of (config_parse [] (B "[foo]
asd = zxc"))))) 0 = Some (B "foo") /\
  isnone (at_ (Some (config_list_sections (cfg_of (config_parse [] (B "[foo]
asd = zxc"))))) 1) = true /\
  config_get (cfg_of (config_parse [] (B "[foo]
asd = zxc"))) (B "foo") (B "asd") = Some (B "zxc") /\
  isnone (config_list_keys (cfg_of (config_parse [] (B "[foo]
asd = zxc"))) (B "foo")) = false /\
  olen (config_list_keys (cfg_of (config_parse [] (B "[foo]
asd = zxc"))) (B "foo")) = 1 /\
  at_ (config_list_keys (cfg_of (config_parse [] (B "[foo]
asd = zxc"))) (B "foo")) 0 = Some (B "asd") /\
  isnone (at_ (config_list_keys (cfg_of (config_parse [] (B "[foo]
asd = zxc"))) (B "foo")) 1) = true /\
  isnone (cfg_err (B "[foo]
asd = zxc
") (config_parse [] (B "[foo]
asd = zxc
"))) = true /\
  trie_size (cfg_of (config_parse [] (B "[foo]
asd = zxc
"))) = 1 /\
  olen (Some (config_list_sections (cfg_of (config_parse [] (B "[foo]
asd = zxc
"))))) = 1 /\
  at_ (Some (config_list_sections (cfg_of (config_parse [] (B "[foo]
asd = zxc
"))))) 0 = Some (B "foo") /\
  isnone (at_ (Some (config_list_sections (cfg_of (config_parse [] (B "[foo]
asd = zxc
"))))) 1) = true /\
  config_get (cfg_of (config_parse [] (B "[foo]
asd = zxc
"))) (B "foo") (B "asd") = Some (B "zxc") /\
  isnone (config_list_keys (cfg_of (config_parse [] (B "[foo]
asd = zxc
"))) (B "foo")) = false /\
  olen (config_list_keys (cfg_of (config_parse [] (B "[foo]
asd = zxc
"))) (B "foo")) = 1 /\
  at_ (config_list_keys (cfg_of (config_parse [] (B "[foo]
asd = zxc
"))) (B "foo")) 0 = Some (B "asd") /\
  isnone (at_ (config_list_keys (cfg_of (config_parse [] (B "[foo]
asd = zxc
"))) (B "foo")) 1) = true /\
  isnone (cfg_err test_config_section_text1 (config_parse [] test_config_section_text1)) = true /\
  trie_size (cfg_of (config_parse [] test_config_section_text1)) = 1 /\
  olen (Some (config_list_sections (cfg_of (config_parse [] test_config_section_text1)))) = 1 /\
  at_ (Some (config_list_sections (cfg_of (config_parse [] test_config_section_text1)))) 0 = Some (B "foo").
Proof. tests. Qed.

Example test_config_section_2 :
  isnone (at_ (Some (config_list_sections (cfg_of (config_parse [] test_config_section_text1)))) 1) = true /\
  config_get (cfg_of (config_parse [] test_config_section_text1)) (B "foo") (B "asd") = Some (B "zxc") /\
  isnone (config_list_keys (cfg_of (config_parse [] test_config_section_text1)) (B "foo")) = false /\
  olen (config_list_keys (cfg_of (config_parse [] test_config_section_text1)) (B "foo")) = 1 /\
  at_ (config_list_keys (cfg_of (config_parse [] test_config_section_text1)) (B "foo")) 0 = Some (B "asd") /\
  isnone (at_ (config_list_keys (cfg_of (config_parse [] test_config_section_text1)) (B "foo")) 1) = true.
Proof. tests. Qed.

Definition test_config_section_multiple_keys_text1 : bytes := B "[foo]" ++ [CR] ++ B "
asd = zxc" ++ [CR] ++ B "
qwe =   rty  " ++ [CR] ++ B "
zxc = vbn" ++ [CR] ++ B "
".
Example test_config_section_multiple_keys_1 :
  isnone (cfg_err (B "[foo]
asd = zxc
qwe =   rty  
zxc = vbn") (config_parse [] (B "[foo]
asd = zxc
qwe =   rty  
zxc = vbn"))) = true /\
  trie_size (cfg_of (config_parse [] (B "[foo]
asd = zxc
qwe =   rty  
zxc = vbn"))) = 1 /\
  olen (Some (config_list_sections (cfg_of (config_parse [] (B "[foo]
asd = zxc
qwe =   rty  
zxc = vbn"))))) = 1 /\
  at_ (Some (config_list_sections (cfg_of (config_parse [] (B "[foo]
asd = zxc
qwe =   rty  
zxc = vbn"))))) 0 = Some (B "foo") /\
  isnone (at_ (Some (config_list_sections (cfg_of (config_parse [] (B "[foo]
asd = zxc
qwe =   rty  
zxc = vbn"))))) 1) = true /\
  config_get (cfg_of (config_parse [] (B "[foo]
asd = zxc
qwe =   rty  
zxc = vbn"))) (B "foo") (B "asd") = Some (B "zxc") /\
  config_get (cfg_of (config_parse [] (B "[foo]
asd = zxc
qwe =   rty  
zxc = vbn"))) (B "foo") (B "qwe") = Some (B "rty") /\
  config_get (cfg_of (config_parse [] (B "[foo]
asd = zxc
qwe =   rty  
zxc = vbn"))) (B "foo") (B "zxc") = Some (B "vbn") /\
  isnone (config_list_keys (cfg_of (config_parse [] (B "[foo]
asd = zxc
qwe =   rty  
zxc = vbn"))) (B "foo")) = false /\
  olen (config_list_keys (cfg_of (config_parse [] (B "[foo]
asd = zxc
qwe =   rty  
zxc = vbn"))) (B "foo")) = 3 /\
  at_ (config_list_keys (cfg_of (config_parse [] (B "[foo]
asd = zxc
qwe =   rty  
zxc = vbn"))) (B "foo")) 0 = Some (B "asd") /\
  at_ (config_list_keys (cfg_of (config_parse [] (B "[foo]
asd = zxc
qwe =   rty  
zxc = vbn"))) (B "foo")) 1 = Some (B "qwe") /\
  at_ (config_list_keys (cfg_of (config_parse [] (B "[foo]
asd = zxc
qwe =   rty  
zxc = vbn"))) (B "foo")) 2 = Some (B "zxc") /\
  isnone (at_ (config_list_keys (cfg_of (config_parse [] (B "[foo]
asd = zxc
qwe =   rty  
zxc = vbn"))) (B "foo")) 3) = true /\
  isnone (cfg_err (B "[foo]
asd = zxc
qwe =   rty  
zxc = vbn
") (config_parse [] (B "[foo]
asd = zxc
qwe =   rty  
zxc = vbn
"))) = true /\
  trie_size (cfg_of (config_parse [] (B "[foo]
asd = zxc
qwe =   rty  
zxc = vbn
"))) = 1 /\
  olen (Some (config_list_sections (cfg_of (config_parse [] (B "[foo]
asd = zxc
qwe =   rty  
zxc = vbn
"))))) = 1 /\
  at_ (Some (config_list_sections (cfg_of (config_parse [] (B "[foo]
asd = zxc
qwe =   rty  
zxc = vbn
"))))) 0 = Some (B "foo") /\
  isnone (at_ (Some (config_list_sections (cfg_of (config_parse [] (B "[foo]
asd = zxc
qwe =   rty  
zxc = vbn
"))))) 1) = true /\
  config_get (cfg_of (config_parse [] (B "[foo]
asd = zxc
qwe =   rty  
zxc = vbn
"))) (B "foo") (B "asd") = Some (B "zxc") /\
  config_get (cfg_of (config_parse [] (B "[foo]
asd = zxc
qwe =   rty  
zxc = vbn
"))) (B "foo") (B "qwe") = Some (B "rty") /\
  config_get (cfg_of (config_parse [] (B "[foo]
asd = zxc
qwe =   rty  
zxc = vbn
"))) (B "foo") (B "zxc") = Some (B "vbn") /\
  isnone (config_list_keys (cfg_of (config_parse [] (B "[foo]
asd = zxc
qwe =   rty  
zxc = vbn
"))) (B "foo")) = false /\
  olen (config_list_keys (cfg_of (config_parse [] (B "[foo]
asd = zxc
qwe =   rty  
zxc = vbn
"))) (B "foo")) = 3.
Proof. tests. Qed.

Example test_config_section_multiple_keys_2 :
  at_ (config_list_keys (cfg_of (config_parse [] (B "[foo]
asd = zxc
qwe =   rty  
zxc = vbn
"))) (B "foo")) 0 = Some (B "asd") /\
  at_ (config_list_keys (cfg_of (config_parse [] (B "[foo]
asd = zxc
qwe =   rty  
zxc = vbn
"))) (B "foo")) 1 = Some (B "qwe") /\
  at_ (config_list_keys (cfg_of (config_parse [] (B "[foo]
asd = zxc
qwe =   rty  
zxc = vbn
"))) (B "foo")) 2 = Some (B "zxc") /\
  isnone (at_ (config_list_keys (cfg_of (config_parse [] (B "[foo]
asd = zxc
qwe =   rty  
zxc = vbn
"))) (B "foo")) 3) = true /\
  isnone (cfg_err test_config_section_multiple_keys_text1 (config_parse [] test_config_section_multiple_keys_text1)) = true /\
  trie_size (cfg_of (config_parse [] test_config_section_multiple_keys_text1)) = 1 /\
  olen (Some (config_list_sections (cfg_of (config_parse [] test_config_section_multiple_keys_text1)))) = 1 /\
  at_ (Some (config_list_sections (cfg_of (config_parse [] test_config_section_multiple_keys_text1)))) 0 = Some (B "foo") /\
  isnone (at_ (Some (config_list_sections (cfg_of (config_parse [] test_config_section_multiple_keys_text1)))) 1) = true /\
  config_get (cfg_of (config_parse [] test_config_section_multiple_keys_text1)) (B "foo") (B "asd") = Some (B "zxc") /\
  config_get (cfg_of (config_parse [] test_config_section_multiple_keys_text1)) (B "foo") (B "qwe") = Some (B "rty") /\
  config_get (cfg_of (config_parse [] test_config_section_multiple_keys_text1)) (B "foo") (B "zxc") = Some (B "vbn") /\
  isnone (config_list_keys (cfg_of (config_parse [] test_config_section_multiple_keys_text1)) (B "foo")) = false /\
  olen (config_list_keys (cfg_of (config_parse [] test_config_section_multiple_keys_text1)) (B "foo")) = 3 /\
  at_ (config_list_keys (cfg_of (config_parse [] test_config_section_multiple_keys_text1)) (B "foo")) 0 = Some (B "asd") /\
  at_ (config_list_keys (cfg_of (config_parse [] test_config_section_multiple_keys_text1)) (B "foo")) 1 = Some (B "qwe") /\
  at_ (config_list_keys (cfg_of (config_parse [] test_config_section_multiple_keys_text1)) (B "foo")) 2 = Some (B "zxc") /\
  isnone (at_ (config_list_keys (cfg_of (config_parse [] test_config_section_multiple_keys_text1)) (B "foo")) 3) = true.
Proof. tests. Qed.

Definition test_config_section_multiple_sections_text1 : bytes := B "[foo]
asd = zxc
qwe = rty
zxc = vbn

[bar]
lol = hehe".
Definition test_config_section_multiple_sections_text2 : bytes := B "[foo]
asd = zxc
qwe = rty
zxc = vbn

[bar]
lol = hehe
".
Definition test_config_section_multiple_sections_text3 : bytes := B "[foo]" ++ [CR] ++ B "
asd = zxc" ++ [CR] ++ B "
qwe = rty" ++ [CR] ++ B "
zxc = vbn" ++ [CR] ++ B "
" ++ [CR] ++ B "
[bar]" ++ [CR] ++ B "
lol = hehe" ++ [CR] ++ B "
".
Example test_config_section_multiple_sections_1 :
  isnone (cfg_err test_config_section_multiple_sections_text1 (config_parse [] test_config_section_multiple_sections_text1)) = true /\
  trie_size (cfg_of (config_parse [] test_config_section_multiple_sections_text1)) = 2 /\
  olen (Some (config_list_sections (cfg_of (config_parse [] test_config_section_multiple_sections_text1)))) = 2 /\
  at_ (Some (config_list_sections (cfg_of (config_parse [] test_config_section_multiple_sections_text1)))) 0 = Some (B "foo") /\
  at_ (Some (config_list_sections (cfg_of (config_parse [] test_config_section_multiple_sections_text1)))) 1 = Some (B "bar") /\
  isnone (at_ (Some (config_list_sections (cfg_of (config_parse [] test_config_section_multiple_sections_text1)))) 2) = true /\
  config_get (cfg_of (config_parse [] test_config_section_multiple_sections_text1)) (B "foo") (B "asd") = Some (B "zxc") /\
  config_get (cfg_of (config_parse [] test_config_section_multiple_sections_text1)) (B "foo") (B "qwe") = Some (B "rty") /\
  config_get (cfg_of (config_parse [] test_config_section_multiple_sections_text1)) (B "foo") (B "zxc") = Some (B "vbn") /\
  config_get (cfg_of (config_parse [] test_config_section_multiple_sections_text1)) (B "bar") (B "lol") = Some (B "hehe") /\
  isnone (config_list_keys (cfg_of (config_parse [] test_config_section_multiple_sections_text1)) (B "foo")) = false /\
  olen (config_list_keys (cfg_of (config_parse [] test_config_section_multiple_sections_text1)) (B "foo")) = 3 /\
  at_ (config_list_keys (cfg_of (config_parse [] test_config_section_multiple_sections_text1)) (B "foo")) 0 = Some (B "asd") /\
  at_ (config_list_keys (cfg_of (config_parse [] test_config_section_multiple_sections_text1)) (B "foo")) 1 = Some (B "qwe") /\
  at_ (config_list_keys (cfg_of (config_parse [] test_config_section_multiple_sections_text1)) (B "foo")) 2 = Some (B "zxc") /\
  isnone (at_ (config_list_keys (cfg_of (config_parse [] test_config_section_multiple_sections_text1)) (B "foo")) 3) = true /\
  isnone (config_list_keys (cfg_of (config_parse [] test_config_section_multiple_sections_text1)) (B "bar")) = false /\
  olen (config_list_keys (cfg_of (config_parse [] test_config_section_multiple_sections_text1)) (B "bar")) = 1 /\
  at_ (config_list_keys (cfg_of (config_parse [] test_config_section_multiple_sections_text1)) (B "bar")) 0 = Some (B "lol") /\
  isnone (at_ (config_list_keys (cfg_of (config_parse [] test_config_section_multiple_sections_text1)) (B "bar")) 1) = true /\
  isnone (cfg_err test_config_section_multiple_sections_text2 (config_parse [] test_config_section_multiple_sections_text2)) = true /\
  trie_size (cfg_of (config_parse [] test_config_section_multiple_sections_text2)) = 2 /\
  olen (Some (config_list_sections (cfg_of (config_parse [] test_config_section_multiple_sections_text2)))) = 2 /\
  at_ (Some (config_list_sections (cfg_of (config_parse [] test_config_section_multiple_sections_text2)))) 0 = Some (B "foo").
Proof. tests. Qed.

Example test_config_section_multiple_sections_2 :
  at_ (Some (config_list_sections (cfg_of (config_parse [] test_config_section_multiple_sections_text2)))) 1 = Some (B "bar") /\
  isnone (at_ (Some (config_list_sections (cfg_of (config_parse [] test_config_section_multiple_sections_text2)))) 2) = true /\
  config_get (cfg_of (config_parse [] test_config_section_multiple_sections_text2)) (B "foo") (B "asd") = Some (B "zxc") /\
  config_get (cfg_of (config_parse [] test_config_section_multiple_sections_text2)) (B "foo") (B "qwe") = Some (B "rty") /\
  config_get (cfg_of (config_parse [] test_config_section_multiple_sections_text2)) (B "foo") (B "zxc") = Some (B "vbn") /\
  config_get (cfg_of (config_parse [] test_config_section_multiple_sections_text2)) (B "bar") (B "lol") = Some (B "hehe") /\
  isnone (config_list_keys (cfg_of (config_parse [] test_config_section_multiple_sections_text2)) (B "foo")) = false /\
  olen (config_list_keys (cfg_of (config_parse [] test_config_section_multiple_sections_text2)) (B "foo")) = 3 /\
  at_ (config_list_keys (cfg_of (config_parse [] test_config_section_multiple_sections_text2)) (B "foo")) 0 = Some (B "asd") /\
  at_ (config_list_keys (cfg_of (config_parse [] test_config_section_multiple_sections_text2)) (B "foo")) 1 = Some (B "qwe") /\
  at_ (config_list_keys (cfg_of (config_parse [] test_config_section_multiple_sections_text2)) (B "foo")) 2 = Some (B "zxc") /\
  isnone (at_ (config_list_keys (cfg_of (config_parse [] test_config_section_multiple_sections_text2)) (B "foo")) 3) = true /\
  isnone (config_list_keys (cfg_of (config_parse [] test_config_section_multiple_sections_text2)) (B "bar")) = false /\
  olen (config_list_keys (cfg_of (config_parse [] test_config_section_multiple_sections_text2)) (B "bar")) = 1 /\
  at_ (config_list_keys (cfg_of (config_parse [] test_config_section_multiple_sections_text2)) (B "bar")) 0 = Some (B "lol") /\
  isnone (at_ (config_list_keys (cfg_of (config_parse [] test_config_section_multiple_sections_text2)) (B "bar")) 1) = true /\
  isnone (cfg_err test_config_section_multiple_sections_text3 (config_parse [] test_config_section_multiple_sections_text3)) = true /\
  trie_size (cfg_of (config_parse [] test_config_section_multiple_sections_text3)) = 2 /\
  olen (Some (config_list_sections (cfg_of (config_parse [] test_config_section_multiple_sections_text3)))) = 2 /\
  at_ (Some (config_list_sections (cfg_of (config_parse [] test_config_section_multiple_sections_text3)))) 0 = Some (B "foo") /\
  at_ (Some (config_list_sections (cfg_of (config_parse [] test_config_section_multiple_sections_text3)))) 1 = Some (B "bar") /\
  isnone (at_ (Some (config_list_sections (cfg_of (config_parse [] test_config_section_multiple_sections_text3)))) 2) = true /\
  config_get (cfg_of (config_parse [] test_config_section_multiple_sections_text3)) (B "foo") (B "asd") = Some (B "zxc") /\
  config_get (cfg_of (config_parse [] test_config_section_multiple_sections_text3)) (B "foo") (B "qwe") = Some (B "rty").
Proof. tests. Qed.

Example test_config_section_multiple_sections_3 :
  config_get (cfg_of (config_parse [] test_config_section_multiple_sections_text3)) (B "foo") (B "zxc") = Some (B "vbn") /\
  config_get (cfg_of (config_parse [] test_config_section_multiple_sections_text3)) (B "bar") (B "lol") = Some (B "hehe") /\
  isnone (config_list_keys (cfg_of (config_parse [] test_config_section_multiple_sections_text3)) (B "foo")) = false /\
  olen (config_list_keys (cfg_of (config_parse [] test_config_section_multiple_sections_text3)) (B "foo")) = 3 /\
  at_ (config_list_keys (cfg_of (config_parse [] test_config_section_multiple_sections_text3)) (B "foo")) 0 = Some (B "asd") /\
  at_ (config_list_keys (cfg_of (config_parse [] test_config_section_multiple_sections_text3)) (B "foo")) 1 = Some (B "qwe") /\
  at_ (config_list_keys (cfg_of (config_parse [] test_config_section_multiple_sections_text3)) (B "foo")) 2 = Some (B "zxc") /\
  isnone (at_ (config_list_keys (cfg_of (config_parse [] test_config_section_multiple_sections_text3)) (B "foo")) 3) = true /\
  isnone (config_list_keys (cfg_of (config_parse [] test_config_section_multiple_sections_text3)) (B "bar")) = false /\
  olen (config_list_keys (cfg_of (config_parse [] test_config_section_multiple_sections_text3)) (B "bar")) = 1 /\
  at_ (config_list_keys (cfg_of (config_parse [] test_config_section_multiple_sections_text3)) (B "bar")) 0 = Some (B "lol") /\
  isnone (at_ (config_list_keys (cfg_of (config_parse [] test_config_section_multiple_sections_text3)) (B "bar")) 1) = true.
Proof. tests. Qed.

Definition test_config_section_list_text1 : bytes := B "[foo]
asd = zxc
qwe = rty
zxc = vbn

[bar]
lol = hehe
  asdasdadssad  ".
Definition test_config_section_list_text2 : bytes := B "[foo]
asd = zxc
qwe = rty
zxc = vbn

[bar]
lol = hehe
asdasdadssad
".
Definition test_config_section_list_text3 : bytes := B "[foo]" ++ [CR] ++ B "
asd = zxc" ++ [CR] ++ B "
qwe = rty" ++ [CR] ++ B "
zxc = vbn" ++ [CR] ++ B "
" ++ [CR] ++ B "
[bar]" ++ [CR] ++ B "
lol = hehe" ++ [CR] ++ B "
asdasdadssad" ++ [CR] ++ B "
".
Example test_config_section_list_1 :
  isnone (cfg_err test_config_section_list_text1 (config_parse ([(B "bar")]) test_config_section_list_text1)) = true /\
  trie_size (cfg_of (config_parse ([(B "bar")]) test_config_section_list_text1)) = 2 /\
  olen (Some (config_list_sections (cfg_of (config_parse ([(B "bar")]) test_config_section_list_text1)))) = 2 /\
  at_ (Some (config_list_sections (cfg_of (config_parse ([(B "bar")]) test_config_section_list_text1)))) 0 = Some (B "foo") /\
  at_ (Some (config_list_sections (cfg_of (config_parse ([(B "bar")]) test_config_section_list_text1)))) 1 = Some (B "bar") /\
  isnone (at_ (Some (config_list_sections (cfg_of (config_parse ([(B "bar")]) test_config_section_list_text1)))) 2) = true /\
  config_get (cfg_of (config_parse ([(B "bar")]) test_config_section_list_text1)) (B "foo") (B "asd") = Some (B "zxc") /\
  config_get (cfg_of (config_parse ([(B "bar")]) test_config_section_list_text1)) (B "foo") (B "qwe") = Some (B "rty") /\
  config_get (cfg_of (config_parse ([(B "bar")]) test_config_section_list_text1)) (B "foo") (B "zxc") = Some (B "vbn") /\
  isnone (config_get_list (cfg_of (config_parse ([(B "bar")]) test_config_section_list_text1)) (B "bar")) = false /\
  at_ (config_get_list (cfg_of (config_parse ([(B "bar")]) test_config_section_list_text1)) (B "bar")) 0 = Some (B "lol = hehe") /\
  at_ (config_get_list (cfg_of (config_parse ([(B "bar")]) test_config_section_list_text1)) (B "bar")) 1 = Some (B "asdasdadssad") /\
  isnone (at_ (config_get_list (cfg_of (config_parse ([(B "bar")]) test_config_section_list_text1)) (B "bar")) 2) = true /\
  isnone (config_list_keys (cfg_of (config_parse ([(B "bar")]) test_config_section_list_text1)) (B "foo")) = false /\
  olen (config_list_keys (cfg_of (config_parse ([(B "bar")]) test_config_section_list_text1)) (B "foo")) = 3 /\
  at_ (config_list_keys (cfg_of (config_parse ([(B "bar")]) test_config_section_list_text1)) (B "foo")) 0 = Some (B "asd") /\
  at_ (config_list_keys (cfg_of (config_parse ([(B "bar")]) test_config_section_list_text1)) (B "foo")) 1 = Some (B "qwe") /\
  at_ (config_list_keys (cfg_of (config_parse ([(B "bar")]) test_config_section_list_text1)) (B "foo")) 2 = Some (B "zxc") /\
  isnone (at_ (config_list_keys (cfg_of (config_parse ([(B "bar")]) test_config_section_list_text1)) (B "foo")) 3) = true /\
  isnone (config_list_keys (cfg_of (config_parse ([(B "bar")]) test_config_section_list_text1)) (B "bar")) = true /\
  isnone (cfg_err test_config_section_list_text2 (config_parse ([(B "bar")]) test_config_section_list_text2)) = true /\
  trie_size (cfg_of (config_parse ([(B "bar")]) test_config_section_list_text2)) = 2 /\
  olen (Some (config_list_sections (cfg_of (config_parse ([(B "bar")]) test_config_section_list_text2)))) = 2 /\
  at_ (Some (config_list_sections (cfg_of (config_parse ([(B "bar")]) test_config_section_list_text2)))) 0 = Some (B "foo").
Proof. tests. Qed.

Example test_config_section_list_2 :
  at_ (Some (config_list_sections (cfg_of (config_parse ([(B "bar")]) test_config_section_list_text2)))) 1 = Some (B "bar") /\
  isnone (at_ (Some (config_list_sections (cfg_of (config_parse ([(B "bar")]) test_config_section_list_text2)))) 2) = true /\
  config_get (cfg_of (config_parse ([(B "bar")]) test_config_section_list_text2)) (B "foo") (B "asd") = Some (B "zxc") /\
  config_get (cfg_of (config_parse ([(B "bar")]) test_config_section_list_text2)) (B "foo") (B "qwe") = Some (B "rty") /\
  config_get (cfg_of (config_parse ([(B "bar")]) test_config_section_list_text2)) (B "foo") (B "zxc") = Some (B "vbn") /\
  isnone (config_get_list (cfg_of (config_parse ([(B "bar")]) test_config_section_list_text2)) (B "bar")) = false /\
  at_ (config_get_list (cfg_of (config_parse ([(B "bar")]) test_config_section_list_text2)) (B "bar")) 0 = Some (B "lol = hehe") /\
  at_ (config_get_list (cfg_of (config_parse ([(B "bar")]) test_config_section_list_text2)) (B "bar")) 1 = Some (B "asdasdadssad") /\
  isnone (at_ (config_get_list (cfg_of (config_parse ([(B "bar")]) test_config_section_list_text2)) (B "bar")) 2) = true /\
  isnone (config_list_keys (cfg_of (config_parse ([(B "bar")]) test_config_section_list_text2)) (B "foo")) = false /\
  olen (config_list_keys (cfg_of (config_parse ([(B "bar")]) test_config_section_list_text2)) (B "foo")) = 3 /\
  at_ (config_list_keys (cfg_of (config_parse ([(B "bar")]) test_config_section_list_text2)) (B "foo")) 0 = Some (B "asd") /\
  at_ (config_list_keys (cfg_of (config_parse ([(B "bar")]) test_config_section_list_text2)) (B "foo")) 1 = Some (B "qwe") /\
  at_ (config_list_keys (cfg_of (config_parse ([(B "bar")]) test_config_section_list_text2)) (B "foo")) 2 = Some (B "zxc") /\
  isnone (at_ (config_list_keys (cfg_of (config_parse ([(B "bar")]) test_config_section_list_text2)) (B "foo")) 3) = true /\
  isnone (config_list_keys (cfg_of (config_parse ([(B "bar")]) test_config_section_list_text2)) (B "bar")) = true /\
  isnone (cfg_err test_config_section_list_text3 (config_parse ([(B "bar")]) test_config_section_list_text3)) = true /\
  trie_size (cfg_of (config_parse ([(B "bar")]) test_config_section_list_text3)) = 2 /\
  olen (Some (config_list_sections (cfg_of (config_parse ([(B "bar")]) test_config_section_list_text3)))) = 2 /\
  at_ (Some (config_list_sections (cfg_of (config_parse ([(B "bar")]) test_config_section_list_text3)))) 0 = Some (B "foo") /\
  at_ (Some (config_list_sections (cfg_of (config_parse ([(B "bar")]) test_config_section_list_text3)))) 1 = Some (B "bar") /\
  isnone (at_ (Some (config_list_sections (cfg_of (config_parse ([(B "bar")]) test_config_section_list_text3)))) 2) = true /\
  config_get (cfg_of (config_parse ([(B "bar")]) test_config_section_list_text3)) (B "foo") (B "asd") = Some (B "zxc") /\
  config_get (cfg_of (config_parse ([(B "bar")]) test_config_section_list_text3)) (B "foo") (B "qwe") = Some (B "rty").
Proof. tests. Qed.

Example test_config_section_list_3 :
  config_get (cfg_of (config_parse ([(B "bar")]) test_config_section_list_text3)) (B "foo") (B "zxc") = Some (B "vbn") /\
  isnone (config_get_list (cfg_of (config_parse ([(B "bar")]) test_config_section_list_text3)) (B "bar")) = false /\
  at_ (config_get_list (cfg_of (config_parse ([(B "bar")]) test_config_section_list_text3)) (B "bar")) 0 = Some (B "lol = hehe") /\
  at_ (config_get_list (cfg_of (config_parse ([(B "bar")]) test_config_section_list_text3)) (B "bar")) 1 = Some (B "asdasdadssad") /\
  isnone (at_ (config_get_list (cfg_of (config_parse ([(B "bar")]) test_config_section_list_text3)) (B "bar")) 2) = true /\
  isnone (config_list_keys (cfg_of (config_parse ([(B "bar")]) test_config_section_list_text3)) (B "foo")) = false /\
  olen (config_list_keys (cfg_of (config_parse ([(B "bar")]) test_config_section_list_text3)) (B "foo")) = 3 /\
  at_ (config_list_keys (cfg_of (config_parse ([(B "bar")]) test_config_section_list_text3)) (B "foo")) 0 = Some (B "asd") /\
  at_ (config_list_keys (cfg_of (config_parse ([(B "bar")]) test_config_section_list_text3)) (B "foo")) 1 = Some (B "qwe") /\
  at_ (config_list_keys (cfg_of (config_parse ([(B "bar")]) test_config_section_list_text3)) (B "foo")) 2 = Some (B "zxc") /\
  isnone (at_ (config_list_keys (cfg_of (config_parse ([(B "bar")]) test_config_section_list_text3)) (B "foo")) 3) = true /\
  isnone (config_list_keys (cfg_of (config_parse ([(B "bar")]) test_config_section_list_text3)) (B "bar")) = true.
Proof. tests. Qed.

Definition test_config_quoted_values_text1 : bytes := B "[foo]
a = ""lol""
b = ""lo\""l""
c = ""lo'l""
d = 'lol'
e = 'lo\'l'
f = 'lo""l'
g = \\asd
h = ""\\asd""
i = '\\asd'
".
Definition test_config_quoted_values_text2 : bytes := B "[foo]
""lol""
""lo\""l""
""lo'l""
'lol'
'lo\'l'
'lo""l'
\\asd
""\\asd""
'\\asd'

[bar]
'lol = hehe'
""  asdasdadssad  """.
Example test_config_quoted_values_1 :
  isnone (cfg_err test_config_quoted_values_text1 (config_parse [] test_config_quoted_values_text1)) = true /\
  trie_size (cfg_of (config_parse [] test_config_quoted_values_text1)) = 1 /\
  olen (Some (config_list_sections (cfg_of (config_parse [] test_config_quoted_values_text1)))) = 1 /\
  at_ (Some (config_list_sections (cfg_of (config_parse [] test_config_quoted_values_text1)))) 0 = Some (B "foo") /\
  isnone (at_ (Some (config_list_sections (cfg_of (config_parse [] test_config_quoted_values_text1)))) 1) = true /\
  isnone (config_list_keys (cfg_of (config_parse [] test_config_quoted_values_text1)) (B "foo")) = false /\
  olen (config_list_keys (cfg_of (config_parse [] test_config_quoted_values_text1)) (B "foo")) = 9 /\
  at_ (config_list_keys (cfg_of (config_parse [] test_config_quoted_values_text1)) (B "foo")) 0 = Some (B "a") /\
  at_ (config_list_keys (cfg_of (config_parse [] test_config_quoted_values_text1)) (B "foo")) 1 = Some (B "b") /\
  at_ (config_list_keys (cfg_of (config_parse [] test_config_quoted_values_text1)) (B "foo")) 2 = Some (B "c") /\
  at_ (config_list_keys (cfg_of (config_parse [] test_config_quoted_values_text1)) (B "foo")) 3 = Some (B "d") /\
  at_ (config_list_keys (cfg_of (config_parse [] test_config_quoted_values_text1)) (B "foo")) 4 = Some (B "e") /\
  at_ (config_list_keys (cfg_of (config_parse [] test_config_quoted_values_text1)) (B "foo")) 5 = Some (B "f") /\
  at_ (config_list_keys (cfg_of (config_parse [] test_config_quoted_values_text1)) (B "foo")) 6 = Some (B "g") /\
  at_ (config_list_keys (cfg_of (config_parse [] test_config_quoted_values_text1)) (B "foo")) 7 = Some (B "h") /\
  at_ (config_list_keys (cfg_of (config_parse [] test_config_quoted_values_text1)) (B "foo")) 8 = Some (B "i") /\
  isnone (at_ (config_list_keys (cfg_of (config_parse [] test_config_quoted_values_text1)) (B "foo")) 9) = true /\
  config_get (cfg_of (config_parse [] test_config_quoted_values_text1)) (B "foo") (B "a") = Some (B "lol") /\
  config_get (cfg_of (config_parse [] test_config_quoted_values_text1)) (B "foo") (B "b") = Some (B "lo""l") /\
  config_get (cfg_of (config_parse [] test_config_quoted_values_text1)) (B "foo") (B "c") = Some (B "lo'l") /\
  config_get (cfg_of (config_parse [] test_config_quoted_values_text1)) (B "foo") (B "d") = Some (B "'lol'") /\
  config_get (cfg_of (config_parse [] test_config_quoted_values_text1)) (B "foo") (B "e") = Some (B "'lo'l'") /\
  config_get (cfg_of (config_parse [] test_config_quoted_values_text1)) (B "foo") (B "f") = Some (B "'lo""l'") /\
  config_get (cfg_of (config_parse [] test_config_quoted_values_text1)) (B "foo") (B "g") = Some (B "\asd").
Proof. tests. Qed.

Example test_config_quoted_values_2 :
  config_get (cfg_of (config_parse [] test_config_quoted_values_text1)) (B "foo") (B "h") = Some (B "\asd") /\
  config_get (cfg_of (config_parse [] test_config_quoted_values_text1)) (B "foo") (B "i") = Some (B "'\asd'") /\
  isnone (cfg_err test_config_quoted_values_text2 (config_parse ([(B "foo"); (B "bar")]) test_config_quoted_values_text2)) = true /\
  trie_size (cfg_of (config_parse ([(B "foo"); (B "bar")]) test_config_quoted_values_text2)) = 2 /\
  olen (Some (config_list_sections (cfg_of (config_parse ([(B "foo"); (B "bar")]) test_config_quoted_values_text2)))) = 2 /\
  at_ (Some (config_list_sections (cfg_of (config_parse ([(B "foo"); (B "bar")]) test_config_quoted_values_text2)))) 0 = Some (B "foo") /\
  at_ (Some (config_list_sections (cfg_of (config_parse ([(B "foo"); (B "bar")]) test_config_quoted_values_text2)))) 1 = Some (B "bar") /\
  isnone (at_ (Some (config_list_sections (cfg_of (config_parse ([(B "foo"); (B "bar")]) test_config_quoted_values_text2)))) 2) = true /\
  at_ (config_get_list (cfg_of (config_parse ([(B "foo"); (B "bar")]) test_config_quoted_values_text2)) (B "foo")) 0 = Some (B "lol") /\
  at_ (config_get_list (cfg_of (config_parse ([(B "foo"); (B "bar")]) test_config_quoted_values_text2)) (B "foo")) 1 = Some (B "lo""l") /\
  at_ (config_get_list (cfg_of (config_parse ([(B "foo"); (B "bar")]) test_config_quoted_values_text2)) (B "foo")) 2 = Some (B "lo'l") /\
  at_ (config_get_list (cfg_of (config_parse ([(B "foo"); (B "bar")]) test_config_quoted_values_text2)) (B "foo")) 3 = Some (B "'lol'") /\
  at_ (config_get_list (cfg_of (config_parse ([(B "foo"); (B "bar")]) test_config_quoted_values_text2)) (B "foo")) 4 = Some (B "'lo'l'") /\
  at_ (config_get_list (cfg_of (config_parse ([(B "foo"); (B "bar")]) test_config_quoted_values_text2)) (B "foo")) 5 = Some (B "'lo""l'") /\
  at_ (config_get_list (cfg_of (config_parse ([(B "foo"); (B "bar")]) test_config_quoted_values_text2)) (B "foo")) 6 = Some (B "\asd") /\
  at_ (config_get_list (cfg_of (config_parse ([(B "foo"); (B "bar")]) test_config_quoted_values_text2)) (B "foo")) 7 = Some (B "\asd") /\
  at_ (config_get_list (cfg_of (config_parse ([(B "foo"); (B "bar")]) test_config_quoted_values_text2)) (B "foo")) 8 = Some (B "'\asd'") /\
  isnone (at_ (config_get_list (cfg_of (config_parse ([(B "foo"); (B "bar")]) test_config_quoted_values_text2)) (B "foo")) 9) = true /\
  isnone (config_get_list (cfg_of (config_parse ([(B "foo"); (B "bar")]) test_config_quoted_values_text2)) (B "bar")) = false /\
  at_ (config_get_list (cfg_of (config_parse ([(B "foo"); (B "bar")]) test_config_quoted_values_text2)) (B "bar")) 0 = Some (B "'lol = hehe'") /\
  at_ (config_get_list (cfg_of (config_parse ([(B "foo"); (B "bar")]) test_config_quoted_values_text2)) (B "bar")) 1 = Some (B "  asdasdadssad  ") /\
  isnone (at_ (config_get_list (cfg_of (config_parse ([(B "foo"); (B "bar")]) test_config_quoted_values_text2)) (B "bar")) 2) = true /\
  isnone (config_list_keys (cfg_of (config_parse ([(B "foo"); (B "bar")]) test_config_quoted_values_text2)) (B "foo")) = true /\
  isnone (config_list_keys (cfg_of (config_parse ([(B "foo"); (B "bar")]) test_config_quoted_values_text2)) (B "bar")) = true.
Proof. tests. Qed.

Definition test_config_empty_values_text1 : bytes := B "[foo]" ++ [CR] ++ B "
asd = " ++ [CR] ++ B "
".
Definition test_config_empty_values_text2 : bytes := B "[foo]" ++ [CR] ++ B "
asd = foo" ++ [CR] ++ B "
qwe =".
Definition test_config_empty_values_text3 : bytes := B "[foo]" ++ [CR] ++ B "
asd = foo" ++ [CR] ++ B "
qwe = " ++ [CR] ++ B "
".
Definition test_config_empty_values_text4 : bytes := B "[foo]" ++ [CR] ++ B "
asd =" ++ [CR] ++ B "
qwe = foo".
Definition test_config_empty_values_text5 : bytes := B "[foo]" ++ [CR] ++ B "
asd = " ++ [CR] ++ B "
qwe = foo" ++ [CR] ++ B "
".
Example test_config_empty_values_1 :
  isnone (cfg_err (B "[foo]
asd =") (config_parse [] (B "[foo]
asd ="))) = true /\
  trie_size (cfg_of (config_parse [] (B "[foo]
asd ="))) = 1 /\
  olen (Some (config_list_sections (cfg_of (config_parse [] (B "[foo]
asd ="))))) = 1 /\
  at_ (Some (config_list_sections (cfg_of (config_parse [] (B "[foo]
asd ="))))) 0 = Some (B "foo") /\
  isnone (at_ (Some (config_list_sections (cfg_of (config_parse [] (B "[foo]
asd ="))))) 1) = true /\
  config_get (cfg_of (config_parse [] (B "[foo]
asd ="))) (B "foo") (B "asd") = Some [] /\
  isnone (config_list_keys (cfg_of (config_parse [] (B "[foo]
asd ="))) (B "foo")) = false /\
  olen (config_list_keys (cfg_of (config_parse [] (B "[foo]
asd ="))) (B "foo")) = 1 /\
  at_ (config_list_keys (cfg_of (config_parse [] (B "[foo]
asd ="))) (B "foo")) 0 = Some (B "asd") /\
  isnone (at_ (config_list_keys (cfg_of (config_parse [] (B "[foo]
asd ="))) (B "foo")) 1) = true /\
  isnone (cfg_err (B "[foo]
asd = 
") (config_parse [] (B "[foo]
asd = 
"))) = true /\
  trie_size (cfg_of (config_parse [] (B "[foo]
asd = 
"))) = 1 /\
  olen (Some (config_list_sections (cfg_of (config_parse [] (B "[foo]
asd = 
"))))) = 1 /\
  at_ (Some (config_list_sections (cfg_of (config_parse [] (B "[foo]
asd = 
"))))) 0 = Some (B "foo") /\
  isnone (at_ (Some (config_list_sections (cfg_of (config_parse [] (B "[foo]
asd = 
"))))) 1) = true /\
  config_get (cfg_of (config_parse [] (B "[foo]
asd = 
"))) (B "foo") (B "asd") = Some [] /\
  isnone (config_list_keys (cfg_of (config_parse [] (B "[foo]
asd = 
"))) (B "foo")) = false /\
  olen (config_list_keys (cfg_of (config_parse [] (B "[foo]
asd = 
"))) (B "foo")) = 1 /\
  at_ (config_list_keys (cfg_of (config_parse [] (B "[foo]
asd = 
"))) (B "foo")) 0 = Some (B "asd") /\
  isnone (at_ (config_list_keys (cfg_of (config_parse [] (B "[foo]
asd = 
"))) (B "foo")) 1) = true /\
  isnone (cfg_err (B "[foo]
asd = foo
qwe =") (config_parse [] (B "[foo]
asd = foo
qwe ="))) = true /\
  trie_size (cfg_of (config_parse [] (B "[foo]
asd = foo
qwe ="))) = 1 /\
  olen (Some (config_list_sections (cfg_of (config_parse [] (B "[foo]
asd = foo
qwe ="))))) = 1 /\
  at_ (Some (config_list_sections (cfg_of (config_parse [] (B "[foo]
asd = foo
qwe ="))))) 0 = Some (B "foo").
Proof. tests. Qed.

Example test_config_empty_values_2 :
  isnone (at_ (Some (config_list_sections (cfg_of (config_parse [] (B "[foo]
asd = foo
qwe ="))))) 1) = true /\
  config_get (cfg_of (config_parse [] (B "[foo]
asd = foo
qwe ="))) (B "foo") (B "asd") = Some (B "foo") /\
  config_get (cfg_of (config_parse [] (B "[foo]
asd = foo
qwe ="))) (B "foo") (B "qwe") = Some [] /\
  isnone (config_list_keys (cfg_of (config_parse [] (B "[foo]
asd = foo
qwe ="))) (B "foo")) = false /\
  olen (config_list_keys (cfg_of (config_parse [] (B "[foo]
asd = foo
qwe ="))) (B "foo")) = 2 /\
  at_ (config_list_keys (cfg_of (config_parse [] (B "[foo]
asd = foo
qwe ="))) (B "foo")) 0 = Some (B "asd") /\
  at_ (config_list_keys (cfg_of (config_parse [] (B "[foo]
asd = foo
qwe ="))) (B "foo")) 1 = Some (B "qwe") /\
  isnone (at_ (config_list_keys (cfg_of (config_parse [] (B "[foo]
asd = foo
qwe ="))) (B "foo")) 2) = true /\
  isnone (cfg_err (B "[foo]
asd = foo
qwe = 
") (config_parse [] (B "[foo]
asd = foo
qwe = 
"))) = true /\
  trie_size (cfg_of (config_parse [] (B "[foo]
asd = foo
qwe = 
"))) = 1 /\
  olen (Some (config_list_sections (cfg_of (config_parse [] (B "[foo]
asd = foo
qwe = 
"))))) = 1 /\
  at_ (Some (config_list_sections (cfg_of (config_parse [] (B "[foo]
asd = foo
qwe = 
"))))) 0 = Some (B "foo") /\
  isnone (at_ (Some (config_list_sections (cfg_of (config_parse [] (B "[foo]
asd = foo
qwe = 
"))))) 1) = true /\
  config_get (cfg_of (config_parse [] (B "[foo]
asd = foo
qwe = 
"))) (B "foo") (B "asd") = Some (B "foo") /\
  config_get (cfg_of (config_parse [] (B "[foo]
asd = foo
qwe = 
"))) (B "foo") (B "qwe") = Some [] /\
  isnone (config_list_keys (cfg_of (config_parse [] (B "[foo]
asd = foo
qwe = 
"))) (B "foo")) = false /\
  olen (config_list_keys (cfg_of (config_parse [] (B "[foo]
asd = foo
qwe = 
"))) (B "foo")) = 2 /\
  at_ (config_list_keys (cfg_of (config_parse [] (B "[foo]
asd = foo
qwe = 
"))) (B "foo")) 0 = Some (B "asd") /\
  at_ (config_list_keys (cfg_of (config_parse [] (B "[foo]
asd = foo
qwe = 
"))) (B "foo")) 1 = Some (B "qwe") /\
  isnone (at_ (config_list_keys (cfg_of (config_parse [] (B "[foo]
asd = foo
qwe = 
"))) (B "foo")) 2) = true /\
  isnone (cfg_err (B "[foo]
asd =
qwe = foo") (config_parse [] (B "[foo]
asd =
qwe = foo"))) = true /\
  trie_size (cfg_of (config_parse [] (B "[foo]
asd =
qwe = foo"))) = 1 /\
  olen (Some (config_list_sections (cfg_of (config_parse [] (B "[foo]
asd =
qwe = foo"))))) = 1 /\
  at_ (Some (config_list_sections (cfg_of (config_parse [] (B "[foo]
asd =
qwe = foo"))))) 0 = Some (B "foo").
Proof. tests. Qed.

Example test_config_empty_values_3 :
  isnone (at_ (Some (config_list_sections (cfg_of (config_parse [] (B "[foo]
asd =
qwe = foo"))))) 1) = true /\
  config_get (cfg_of (config_parse [] (B "[foo]
asd =
qwe = foo"))) (B "foo") (B "asd") = Some [] /\
  config_get (cfg_of (config_parse [] (B "[foo]
asd =
qwe = foo"))) (B "foo") (B "qwe") = Some (B "foo") /\
  isnone (config_list_keys (cfg_of (config_parse [] (B "[foo]
asd =
qwe = foo"))) (B "foo")) = false /\
  olen (config_list_keys (cfg_of (config_parse [] (B "[foo]
asd =
qwe = foo"))) (B "foo")) = 2 /\
  at_ (config_list_keys (cfg_of (config_parse [] (B "[foo]
asd =
qwe = foo"))) (B "foo")) 0 = Some (B "asd") /\
  at_ (config_list_keys (cfg_of (config_parse [] (B "[foo]
asd =
qwe = foo"))) (B "foo")) 1 = Some (B "qwe") /\
  isnone (at_ (config_list_keys (cfg_of (config_parse [] (B "[foo]
asd =
qwe = foo"))) (B "foo")) 2) = true /\
  isnone (cfg_err (B "[foo]
asd = 
qwe = foo
") (config_parse [] (B "[foo]
asd = 
qwe = foo
"))) = true /\
  trie_size (cfg_of (config_parse [] (B "[foo]
asd = 
qwe = foo
"))) = 1 /\
  olen (Some (config_list_sections (cfg_of (config_parse [] (B "[foo]
asd = 
qwe = foo
"))))) = 1 /\
  at_ (Some (config_list_sections (cfg_of (config_parse [] (B "[foo]
asd = 
qwe = foo
"))))) 0 = Some (B "foo") /\
  isnone (at_ (Some (config_list_sections (cfg_of (config_parse [] (B "[foo]
asd = 
qwe = foo
"))))) 1) = true /\
  config_get (cfg_of (config_parse [] (B "[foo]
asd = 
qwe = foo
"))) (B "foo") (B "asd") = Some [] /\
  config_get (cfg_of (config_parse [] (B "[foo]
asd = 
qwe = foo
"))) (B "foo") (B "qwe") = Some (B "foo") /\
  isnone (config_list_keys (cfg_of (config_parse [] (B "[foo]
asd = 
qwe = foo
"))) (B "foo")) = false /\
  olen (config_list_keys (cfg_of (config_parse [] (B "[foo]
asd = 
qwe = foo
"))) (B "foo")) = 2 /\
  at_ (config_list_keys (cfg_of (config_parse [] (B "[foo]
asd = 
qwe = foo
"))) (B "foo")) 0 = Some (B "asd") /\
  at_ (config_list_keys (cfg_of (config_parse [] (B "[foo]
asd = 
qwe = foo
"))) (B "foo")) 1 = Some (B "qwe") /\
  isnone (at_ (config_list_keys (cfg_of (config_parse [] (B "[foo]
asd = 
qwe = foo
"))) (B "foo")) 2) = true /\
  isnone (cfg_err (B "[foo]" ++ [CR] ++ B "
asd =") (config_parse [] (B "[foo]" ++ [CR] ++ B "
asd ="))) = true /\
  trie_size (cfg_of (config_parse [] (B "[foo]" ++ [CR] ++ B "
asd ="))) = 1 /\
  olen (Some (config_list_sections (cfg_of (config_parse [] (B "[foo]" ++ [CR] ++ B "
asd ="))))) = 1 /\
  at_ (Some (config_list_sections (cfg_of (config_parse [] (B "[foo]" ++ [CR] ++ B "
asd ="))))) 0 = Some (B "foo").
Proof. tests. Qed.

Example test_config_empty_values_4 :
  isnone (at_ (Some (config_list_sections (cfg_of (config_parse [] (B "[foo]" ++ [CR] ++ B "
asd ="))))) 1) = true /\
  config_get (cfg_of (config_parse [] (B "[foo]" ++ [CR] ++ B "
asd ="))) (B "foo") (B "asd") = Some [] /\
  isnone (config_list_keys (cfg_of (config_parse [] (B "[foo]" ++ [CR] ++ B "
asd ="))) (B "foo")) = false /\
  olen (config_list_keys (cfg_of (config_parse [] (B "[foo]" ++ [CR] ++ B "
asd ="))) (B "foo")) = 1 /\
  at_ (config_list_keys (cfg_of (config_parse [] (B "[foo]" ++ [CR] ++ B "
asd ="))) (B "foo")) 0 = Some (B "asd") /\
  isnone (at_ (config_list_keys (cfg_of (config_parse [] (B "[foo]" ++ [CR] ++ B "
asd ="))) (B "foo")) 1) = true /\
  isnone (cfg_err test_config_empty_values_text1 (config_parse [] test_config_empty_values_text1)) = true /\
  trie_size (cfg_of (config_parse [] test_config_empty_values_text1)) = 1 /\
  olen (Some (config_list_sections (cfg_of (config_parse [] test_config_empty_values_text1)))) = 1 /\
  at_ (Some (config_list_sections (cfg_of (config_parse [] test_config_empty_values_text1)))) 0 = Some (B "foo") /\
  isnone (at_ (Some (config_list_sections (cfg_of (config_parse [] test_config_empty_values_text1)))) 1) = true /\
  config_get (cfg_of (config_parse [] test_config_empty_values_text1)) (B "foo") (B "asd") = Some [] /\
  isnone (config_list_keys (cfg_of (config_parse [] test_config_empty_values_text1)) (B "foo")) = false /\
  olen (config_list_keys (cfg_of (config_parse [] test_config_empty_values_text1)) (B "foo")) = 1 /\
  at_ (config_list_keys (cfg_of (config_parse [] test_config_empty_values_text1)) (B "foo")) 0 = Some (B "asd") /\
  isnone (at_ (config_list_keys (cfg_of (config_parse [] test_config_empty_values_text1)) (B "foo")) 1) = true /\
  isnone (cfg_err test_config_empty_values_text2 (config_parse [] test_config_empty_values_text2)) = true /\
  trie_size (cfg_of (config_parse [] test_config_empty_values_text2)) = 1 /\
  olen (Some (config_list_sections (cfg_of (config_parse [] test_config_empty_values_text2)))) = 1 /\
  at_ (Some (config_list_sections (cfg_of (config_parse [] test_config_empty_values_text2)))) 0 = Some (B "foo") /\
  isnone (at_ (Some (config_list_sections (cfg_of (config_parse [] test_config_empty_values_text2)))) 1) = true /\
  config_get (cfg_of (config_parse [] test_config_empty_values_text2)) (B "foo") (B "asd") = Some (B "foo") /\
  config_get (cfg_of (config_parse [] test_config_empty_values_text2)) (B "foo") (B "qwe") = Some [] /\
  isnone (config_list_keys (cfg_of (config_parse [] test_config_empty_values_text2)) (B "foo")) = false.
Proof. tests. Qed.

Example test_config_empty_values_5 :
  olen (config_list_keys (cfg_of (config_parse [] test_config_empty_values_text2)) (B "foo")) = 2 /\
  at_ (config_list_keys (cfg_of (config_parse [] test_config_empty_values_text2)) (B "foo")) 0 = Some (B "asd") /\
  at_ (config_list_keys (cfg_of (config_parse [] test_config_empty_values_text2)) (B "foo")) 1 = Some (B "qwe") /\
  isnone (at_ (config_list_keys (cfg_of (config_parse [] test_config_empty_values_text2)) (B "foo")) 2) = true /\
  isnone (cfg_err test_config_empty_values_text3 (config_parse [] test_config_empty_values_text3)) = true /\
  trie_size (cfg_of (config_parse [] test_config_empty_values_text3)) = 1 /\
  olen (Some (config_list_sections (cfg_of (config_parse [] test_config_empty_values_text3)))) = 1 /\
  at_ (Some (config_list_sections (cfg_of (config_parse [] test_config_empty_values_text3)))) 0 = Some (B "foo") /\
  isnone (at_ (Some (config_list_sections (cfg_of (config_parse [] test_config_empty_values_text3)))) 1) = true /\
  config_get (cfg_of (config_parse [] test_config_empty_values_text3)) (B "foo") (B "asd") = Some (B "foo") /\
  config_get (cfg_of (config_parse [] test_config_empty_values_text3)) (B "foo") (B "qwe") = Some [] /\
  isnone (config_list_keys (cfg_of (config_parse [] test_config_empty_values_text3)) (B "foo")) = false /\
  olen (config_list_keys (cfg_of (config_parse [] test_config_empty_values_text3)) (B "foo")) = 2 /\
  at_ (config_list_keys (cfg_of (config_parse [] test_config_empty_values_text3)) (B "foo")) 0 = Some (B "asd") /\
  at_ (config_list_keys (cfg_of (config_parse [] test_config_empty_values_text3)) (B "foo")) 1 = Some (B "qwe") /\
  isnone (at_ (config_list_keys (cfg_of (config_parse [] test_config_empty_values_text3)) (B "foo")) 2) = true /\
  isnone (cfg_err test_config_empty_values_text4 (config_parse [] test_config_empty_values_text4)) = true /\
  trie_size (cfg_of (config_parse [] test_config_empty_values_text4)) = 1 /\
  olen (Some (config_list_sections (cfg_of (config_parse [] test_config_empty_values_text4)))) = 1 /\
  at_ (Some (config_list_sections (cfg_of (config_parse [] test_config_empty_values_text4)))) 0 = Some (B "foo") /\
  isnone (at_ (Some (config_list_sections (cfg_of (config_parse [] test_config_empty_values_text4)))) 1) = true /\
  config_get (cfg_of (config_parse [] test_config_empty_values_text4)) (B "foo") (B "asd") = Some [] /\
  config_get (cfg_of (config_parse [] test_config_empty_values_text4)) (B "foo") (B "qwe") = Some (B "foo") /\
  isnone (config_list_keys (cfg_of (config_parse [] test_config_empty_values_text4)) (B "foo")) = false.
Proof. tests. Qed.

Example test_config_empty_values_6 :
  olen (config_list_keys (cfg_of (config_parse [] test_config_empty_values_text4)) (B "foo")) = 2 /\
  at_ (config_list_keys (cfg_of (config_parse [] test_config_empty_values_text4)) (B "foo")) 0 = Some (B "asd") /\
  at_ (config_list_keys (cfg_of (config_parse [] test_config_empty_values_text4)) (B "foo")) 1 = Some (B "qwe") /\
  isnone (at_ (config_list_keys (cfg_of (config_parse [] test_config_empty_values_text4)) (B "foo")) 2) = true /\
  isnone (cfg_err test_config_empty_values_text5 (config_parse [] test_config_empty_values_text5)) = true /\
  trie_size (cfg_of (config_parse [] test_config_empty_values_text5)) = 1 /\
  olen (Some (config_list_sections (cfg_of (config_parse [] test_config_empty_values_text5)))) = 1 /\
  at_ (Some (config_list_sections (cfg_of (config_parse [] test_config_empty_values_text5)))) 0 = Some (B "foo") /\
  isnone (at_ (Some (config_list_sections (cfg_of (config_parse [] test_config_empty_values_text5)))) 1) = true /\
  config_get (cfg_of (config_parse [] test_config_empty_values_text5)) (B "foo") (B "asd") = Some [] /\
  config_get (cfg_of (config_parse [] test_config_empty_values_text5)) (B "foo") (B "qwe") = Some (B "foo") /\
  isnone (config_list_keys (cfg_of (config_parse [] test_config_empty_values_text5)) (B "foo")) = false /\
  olen (config_list_keys (cfg_of (config_parse [] test_config_empty_values_text5)) (B "foo")) = 2 /\
  at_ (config_list_keys (cfg_of (config_parse [] test_config_empty_values_text5)) (B "foo")) 0 = Some (B "asd") /\
  at_ (config_list_keys (cfg_of (config_parse [] test_config_empty_values_text5)) (B "foo")) 1 = Some (B "qwe") /\
  isnone (at_ (config_list_keys (cfg_of (config_parse [] test_config_empty_values_text5)) (B "foo")) 2) = true.
Proof. tests. Qed.

Definition test_config_key_prefix_text1 : bytes := B "[foo]
LAST_FLIGHT = lol
LAST_FLIGHT_SLUG = hehe
".
Example test_config_key_prefix :
  isnone (cfg_err test_config_key_prefix_text1 (config_parse [] test_config_key_prefix_text1)) = true /\
  trie_size (cfg_of (config_parse [] test_config_key_prefix_text1)) = 1 /\
  olen (Some (config_list_sections (cfg_of (config_parse [] test_config_key_prefix_text1)))) = 1 /\
  at_ (Some (config_list_sections (cfg_of (config_parse [] test_config_key_prefix_text1)))) 0 = Some (B "foo") /\
  isnone (at_ (Some (config_list_sections (cfg_of (config_parse [] test_config_key_prefix_text1)))) 1) = true /\
  isnone (config_list_keys (cfg_of (config_parse [] test_config_key_prefix_text1)) (B "foo")) = false /\
  olen (config_list_keys (cfg_of (config_parse [] test_config_key_prefix_text1)) (B "foo")) = 2 /\
  at_ (config_list_keys (cfg_of (config_parse [] test_config_key_prefix_text1)) (B "foo")) 0 = Some (B "LAST_FLIGHT") /\
  at_ (config_list_keys (cfg_of (config_parse [] test_config_key_prefix_text1)) (B "foo")) 1 = Some (B "LAST_FLIGHT_SLUG") /\
  isnone (at_ (config_list_keys (cfg_of (config_parse [] test_config_key_prefix_text1)) (B "foo")) 2) = true /\
  config_get (cfg_of (config_parse [] test_config_key_prefix_text1)) (B "foo") (B "LAST_FLIGHT") = Some (B "lol") /\
  config_get (cfg_of (config_parse [] test_config_key_prefix_text1)) (B "foo") (B "LAST_FLIGHT_SLUG") = Some (B "hehe").
Proof. tests. Qed.

Example test_config_error_start :
  isnone (cfg_err (B "asd
[foo]") (config_parse [] (B "asd
[foo]"))) = false /\
  cfg_err (B "asd
[foo]") (config_parse [] (B "asd
[foo]")) = Some (B "File must start with section.
Error occurred near line 1, position 1: asd").
Proof. tests. Qed.

Example test_config_error_section_with_newline :
  isnone (cfg_err (B "[foo
bar]") (config_parse [] (B "[foo
bar]"))) = false /\
  cfg_err (B "[foo
bar]") (config_parse [] (B "[foo
bar]")) = Some (B "Section names can't have new lines.
Error occurred near line 1, position 5: [foo").
Proof. tests. Qed.

Example test_config_error_key_without_value :
  isnone (cfg_err (B "[foobar]
asd = 12
foo") (config_parse [] (B "[foobar]
asd = 12
foo"))) = false /\
  cfg_err (B "[foobar]
asd = 12
foo") (config_parse [] (B "[foobar]
asd = 12
foo")) = Some (B "Key without value: foo.
Error occurred near line 3, position 3: foo") /\
  isnone (cfg_err (B "[foobar]
asd = 12
foo
") (config_parse [] (B "[foobar]
asd = 12
foo
"))) = false /\
  cfg_err (B "[foobar]
asd = 12
foo
") (config_parse [] (B "[foobar]
asd = 12
foo
")) = Some (B "Key without value: foo.
Error occurred near line 3, position 4: foo").
Proof. tests. Qed.
