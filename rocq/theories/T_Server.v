(* The expectations of the unit tests of the project (tests/blogc-git-receiver and tests/blogc-runserver), as
   statements on the model. Written by a program from the C text of the tests: every
   call to a modelled function is replaced by the model, every assertion by an
   equation. Assertions on NULL arguments, on error codes and on functions that are not
   modelled are left out. These are tests of the model, not proofs of properties. *)
From Coq Require Import ZArith DecimalString.
From Verif Require Import Base Utils Trie ErrorPos Receiver Runserver.
#[local] Open Scope nat_scope.


Ltac tests := repeat match goal with |- _ /\ _ => split end; vm_compute; reflexivity.
(* assert_null *)
Definition isnone (A : Type) (x : option A) : bool := match x with None => true | Some _ => false end.
(* an array of strings, or NULL: the string at an index *)
Definition at_ (x : option (list bytes)) (n : nat) : option bytes := match x with Some l => nth_error l n | None => None end.
Definition olen (x : option (list bytes)) : nat := match x with Some l => length l | None => 0 end.
Definition ok_opt (A : Type) (x : res (option A)) : option A := match x with Ok r => r | _ => None end.
Definition num (n : nat) : bytes := B (NilEmpty.string_of_uint (Nat.to_uint n)).
(* the message of bc_error_parser, error.c 34-90 *)
Definition near (src : bytes) (at' : nat) (msg : bytes) : bytes :=
  match error_near src at' with
  | Some (line, pos, text) => msg ++ [LF] ++ B "Error occurred near line " ++ num line ++ B ", position " ++ num pos ++ B ": " ++ text
  | None => msg
  end.

Definition lookup_ (t : option (trie bytes)) (k : bytes) : option bytes := match t with Some t => trie_lookup t k | None => None end.
Definition size_ (t : option (trie bytes)) : nat := match t with Some t => trie_size t | None => 0 end.

(* ---------- tests/blogc-git-receiver/check_shell_command_parser.c ---------- *)

Example test_shell_command_parse_1 :
  isnone (shell_command_parse []) = true /\
  isnone (shell_command_parse (B "bola")) = true /\
  isnone (shell_command_parse (B "bola guda")) = true /\
  isnone (shell_command_parse (B "bola 'guda'")) = true /\
  shell_command_parse (B "git-receive-pack 'bola.git'") = Some (B "bola.git") /\
  shell_command_parse (B "git-upload-pack 'bolaa.git'") = Some (B "bolaa.git") /\
  shell_command_parse (B "git-upload-archive 'bolab.git'") = Some (B "bolab.git") /\
  shell_command_parse (B "git-receive-pack '/bola1.git'") = Some (B "bola1.git") /\
  shell_command_parse (B "git-receive-pack '/bola2.git/'") = Some (B "bola2.git/") /\
  shell_command_parse (B "git-receive-pack 'bola3.git/'") = Some (B "bola3.git/") /\
  shell_command_parse (B "git-receive-pack 'foo/bola.git'") = Some (B "foo/bola.git") /\
  shell_command_parse (B "git-receive-pack '/foo/bola1.git'") = Some (B "foo/bola1.git") /\
  shell_command_parse (B "git-receive-pack '/foo/bola2.git/'") = Some (B "foo/bola2.git/") /\
  shell_command_parse (B "git-receive-pack 'foo/bola3.git/'") = Some (B "foo/bola3.git/") /\
  shell_command_parse (B "git-receive-pack ''\''bola.git'") = Some (B "'bola.git") /\
  shell_command_parse (B "git-receive-pack ''\''/bola1.git'") = Some (B "'/bola1.git") /\
  shell_command_parse (B "git-receive-pack ''\''/bola2.git/'") = Some (B "'/bola2.git/") /\
  shell_command_parse (B "git-receive-pack ''\''bola3.git/'") = Some (B "'bola3.git/") /\
  shell_command_parse (B "git-receive-pack ''\''foo/bola.git'") = Some (B "'foo/bola.git") /\
  shell_command_parse (B "git-receive-pack ''\''/foo/bola1.git'") = Some (B "'/foo/bola1.git") /\
  shell_command_parse (B "git-receive-pack ''\''/foo/bola2.git/'") = Some (B "'/foo/bola2.git/") /\
  shell_command_parse (B "git-receive-pack ''\''foo/bola3.git/'") = Some (B "'foo/bola3.git/") /\
  shell_command_parse (B "git-receive-pack 'bola.git'\'''") = Some (B "bola.git'") /\
  shell_command_parse (B "git-receive-pack '/bola1.git'\'''") = Some (B "bola1.git'").
Proof. tests. Qed.

Example test_shell_command_parse_2 :
  shell_command_parse (B "git-receive-pack '/bola2.git/'\'''") = Some (B "bola2.git/'") /\
  shell_command_parse (B "git-receive-pack 'bola3.git/'\'''") = Some (B "bola3.git/'") /\
  shell_command_parse (B "git-receive-pack 'foo/bola.git'\'''") = Some (B "foo/bola.git'") /\
  shell_command_parse (B "git-receive-pack '/foo/bola1.git'\'''") = Some (B "foo/bola1.git'") /\
  shell_command_parse (B "git-receive-pack '/foo/bola2.git/'\'''") = Some (B "foo/bola2.git/'") /\
  shell_command_parse (B "git-receive-pack 'foo/bola3.git/'\'''") = Some (B "foo/bola3.git/'") /\
  shell_command_parse (B "git-receive-pack 'bo'\''la.git'") = Some (B "bo'la.git") /\
  shell_command_parse (B "git-receive-pack '/bo'\''la1.git'") = Some (B "bo'la1.git") /\
  shell_command_parse (B "git-receive-pack '/bo'\''la2.git/'") = Some (B "bo'la2.git/") /\
  shell_command_parse (B "git-receive-pack 'bo'\''la3.git/'") = Some (B "bo'la3.git/") /\
  shell_command_parse (B "git-receive-pack 'foo/bo'\''la.git'") = Some (B "foo/bo'la.git") /\
  shell_command_parse (B "git-receive-pack '/foo/bo'\''la1.git'") = Some (B "foo/bo'la1.git") /\
  shell_command_parse (B "git-receive-pack '/foo/bo'\''la2.git/'") = Some (B "foo/bo'la2.git/") /\
  shell_command_parse (B "git-receive-pack 'foo/bo'\''la3.git/'") = Some (B "foo/bo'la3.git/") /\
  shell_command_parse (B "git-receive-pack ''\!'bola.git'") = Some (B "!bola.git") /\
  shell_command_parse (B "git-receive-pack ''\!'/bola1.git'") = Some (B "!/bola1.git") /\
  shell_command_parse (B "git-receive-pack ''\!'/bola2.git/'") = Some (B "!/bola2.git/") /\
  shell_command_parse (B "git-receive-pack ''\!'bola3.git/'") = Some (B "!bola3.git/") /\
  shell_command_parse (B "git-receive-pack ''\!'foo/bola.git'") = Some (B "!foo/bola.git") /\
  shell_command_parse (B "git-receive-pack ''\!'/foo/bola1.git'") = Some (B "!/foo/bola1.git") /\
  shell_command_parse (B "git-receive-pack ''\!'/foo/bola2.git/'") = Some (B "!/foo/bola2.git/") /\
  shell_command_parse (B "git-receive-pack ''\!'foo/bola3.git/'") = Some (B "!foo/bola3.git/") /\
  shell_command_parse (B "git-receive-pack 'bola.git'\!''") = Some (B "bola.git!") /\
  shell_command_parse (B "git-receive-pack '/bola1.git'\!''") = Some (B "bola1.git!").
Proof. tests. Qed.

Example test_shell_command_parse_3 :
  shell_command_parse (B "git-receive-pack '/bola2.git/'\!''") = Some (B "bola2.git/!") /\
  shell_command_parse (B "git-receive-pack 'bola3.git/'\!''") = Some (B "bola3.git/!") /\
  shell_command_parse (B "git-receive-pack 'foo/bola.git'\!''") = Some (B "foo/bola.git!") /\
  shell_command_parse (B "git-receive-pack '/foo/bola1.git'\!''") = Some (B "foo/bola1.git!") /\
  shell_command_parse (B "git-receive-pack '/foo/bola2.git/'\!''") = Some (B "foo/bola2.git/!") /\
  shell_command_parse (B "git-receive-pack 'foo/bola3.git/'\!''") = Some (B "foo/bola3.git/!") /\
  shell_command_parse (B "git-receive-pack 'bo'\!'la.git'") = Some (B "bo!la.git") /\
  shell_command_parse (B "git-receive-pack '/bo'\!'la1.git'") = Some (B "bo!la1.git") /\
  shell_command_parse (B "git-receive-pack '/bo'\!'la2.git/'") = Some (B "bo!la2.git/") /\
  shell_command_parse (B "git-receive-pack 'bo'\!'la3.git/'") = Some (B "bo!la3.git/") /\
  shell_command_parse (B "git-receive-pack 'foo/bo'\!'la.git'") = Some (B "foo/bo!la.git") /\
  shell_command_parse (B "git-receive-pack '/foo/bo'\!'la1.git'") = Some (B "foo/bo!la1.git") /\
  shell_command_parse (B "git-receive-pack '/foo/bo'\!'la2.git/'") = Some (B "foo/bo!la2.git/") /\
  shell_command_parse (B "git-receive-pack 'foo/bo'\!'la3.git/'") = Some (B "foo/bo!la3.git/").
Proof. tests. Qed.

(* ---------- tests/blogc-git-receiver/check_pre_receive_parser.c ---------- *)

Definition test_pre_receive_parse_text1 : bytes := B "4f1f932f6ef6d6c9770266775c2db072964d7a62 3fff4bb3172f77b292b0c913749e81bedd3545f3 refs/heads/master asd
".
Definition test_pre_receive_parse_text2 : bytes := B "4f1f932f6ef6d6c9770266775c2db072964d7a62 3fff4bb3172f77b292b0c913749e81bedd3545f3 refs/heads/master
".
Definition test_pre_receive_parse_text3 : bytes := B "4f1f932f6ef6d6c9770266775c2db072964d7a62 3fff4bb3172f77b292b0c913749e81bedd3545fa refs/heads/master
4f1f932f6ef6d6c9770266775c2db072964d7a63 3fff4bb3172f77b292b0c913749e81bedd3545f4 refs/heads/bola
".
Definition test_pre_receive_parse_text4 : bytes := B "4f1f932f6ef6d6c9770266775c2db072964d7a63 3fff4bb3172f77b292b0c913749e81bedd3545f4 refs/heads/bola
4f1f932f6ef6d6c9770266775c2db072964d7a62 3fff4bb3172f77b292b0c913749e81bedd3545fb refs/heads/master
".
Definition test_pre_receive_parse_text5 : bytes := B "4f1f932f6ef6d6c9770266775c2db072964d7a63 3fff4bb3172f77b292b0c913749e81bedd3545f4 refs/heads/bola
4f1f932f6ef6d6c9770266775c2db072964d7a62 3fff4bb3172f77b292b0c913749e81bedd3545fc refs/heads/master
4f1f932f6ef6d6c9770266775c2db072964d7a64 3fff4bb3172f77b292b0c913749e81bedd3545f5 refs/heads/bolao
".
Example test_pre_receive_parse_1 :
  isnone (pre_receive_parse []) = true /\
  isnone (pre_receive_parse (B "4f1f932f6ef6d6c9770266775c2db072964d7a62")) = true /\
  isnone (pre_receive_parse (B "4f1f932f6ef6d6c9770266775c2db072964d7a62 ")) = true /\
  isnone (pre_receive_parse (B "4f1f932f6ef6d6c9770266775c2db072964d7a62 3fff4bb3172f77b292b0c913749e81bedd3545f3")) = true /\
  isnone (pre_receive_parse (B "4f1f932f6ef6d6c9770266775c2db072964d7a62 3fff4bb3172f77b292b0c913749e81bedd3545f3 ")) = true /\
  isnone (pre_receive_parse (B "4f1f932f6ef6d6c9770266775c2db072964d7a62 3fff4bb3172f77b292b0c913749e81bedd3545f3 refs/heads/lol")) = true /\
  isnone (pre_receive_parse (B "4f1f932f6ef6d6c9770266775c2db072964d7a62 3fff4bb3172f77b292b0c913749e81bedd3545f3 refs/heads/master")) = true /\
  isnone (pre_receive_parse (B "4f1f932f6ef6d6c9770266775c2db072964d7a62 3fff4bb3172f77b292b0c913749e81bedd3545f3 adgfdgdfgfdgdfgdfgdfgdfgdfg
")) = true /\
  isnone (pre_receive_parse test_pre_receive_parse_text1) = false /\
  size_ (pre_receive_parse test_pre_receive_parse_text1) = 1 /\
  lookup_ (pre_receive_parse test_pre_receive_parse_text1) (B "master asd") = Some (B "3fff4bb3172f77b292b0c913749e81bedd3545f3") /\
  isnone (pre_receive_parse test_pre_receive_parse_text2) = false /\
  size_ (pre_receive_parse test_pre_receive_parse_text2) = 1 /\
  lookup_ (pre_receive_parse test_pre_receive_parse_text2) (B "master") = Some (B "3fff4bb3172f77b292b0c913749e81bedd3545f3") /\
  isnone (pre_receive_parse test_pre_receive_parse_text3) = false /\
  size_ (pre_receive_parse test_pre_receive_parse_text3) = 2 /\
  lookup_ (pre_receive_parse test_pre_receive_parse_text3) (B "master") = Some (B "3fff4bb3172f77b292b0c913749e81bedd3545fa") /\
  lookup_ (pre_receive_parse test_pre_receive_parse_text3) (B "bola") = Some (B "3fff4bb3172f77b292b0c913749e81bedd3545f4") /\
  isnone (pre_receive_parse test_pre_receive_parse_text4) = false /\
  size_ (pre_receive_parse test_pre_receive_parse_text4) = 2 /\
  lookup_ (pre_receive_parse test_pre_receive_parse_text4) (B "bola") = Some (B "3fff4bb3172f77b292b0c913749e81bedd3545f4") /\
  lookup_ (pre_receive_parse test_pre_receive_parse_text4) (B "master") = Some (B "3fff4bb3172f77b292b0c913749e81bedd3545fb") /\
  isnone (pre_receive_parse test_pre_receive_parse_text5) = false /\
  size_ (pre_receive_parse test_pre_receive_parse_text5) = 3.
Proof. tests. Qed.

Example test_pre_receive_parse_2 :
  lookup_ (pre_receive_parse test_pre_receive_parse_text5) (B "bola") = Some (B "3fff4bb3172f77b292b0c913749e81bedd3545f4") /\
  lookup_ (pre_receive_parse test_pre_receive_parse_text5) (B "master") = Some (B "3fff4bb3172f77b292b0c913749e81bedd3545fc") /\
  lookup_ (pre_receive_parse test_pre_receive_parse_text5) (B "bolao") = Some (B "3fff4bb3172f77b292b0c913749e81bedd3545f5").
Proof. tests. Qed.

(* ---------- tests/blogc-runserver/check_httpd_utils.c ---------- *)

Example test_readline :
  Some (readline [(B "bola")]) = Some (B "bola") /\
  Some (readline [(B "bola1
guda
xd")]) = Some (B "bola1") /\
  Some (readline [(B "bola2" ++ [CR] ++ B "guda" ++ [CR] ++ B "xd")]) = Some (B "bola2") /\
  Some (readline [(B "bola3" ++ [CR] ++ B "
guda" ++ [CR] ++ B "
xd")]) = Some (B "bola3").
Proof. tests. Qed.

Example test_hextoi_1 :
  hextoi "0"%char = Some 0%N /\
  hextoi "1"%char = Some 1%N /\
  hextoi "2"%char = Some 2%N /\
  hextoi "3"%char = Some 3%N /\
  hextoi "4"%char = Some 4%N /\
  hextoi "5"%char = Some 5%N /\
  hextoi "6"%char = Some 6%N /\
  hextoi "7"%char = Some 7%N /\
  hextoi "8"%char = Some 8%N /\
  hextoi "9"%char = Some 9%N /\
  hextoi "a"%char = Some 10%N /\
  hextoi "b"%char = Some 11%N /\
  hextoi "c"%char = Some 12%N /\
  hextoi "d"%char = Some 13%N /\
  hextoi "e"%char = Some 14%N /\
  hextoi "f"%char = Some 15%N /\
  hextoi "A"%char = Some 10%N /\
  hextoi "B"%char = Some 11%N /\
  hextoi "C"%char = Some 12%N /\
  hextoi "D"%char = Some 13%N /\
  hextoi "E"%char = Some 14%N /\
  hextoi "F"%char = Some 15%N /\
  hextoi "g"%char = None /\
  hextoi "G"%char = None.
Proof. tests. Qed.

Example test_hextoi_2 :
  hextoi "-"%char = None.
Proof. tests. Qed.

Example test_urldecode :
  Some (urldecode (B "%xb")) = Some (B "%xb") /\
  Some (urldecode (B "%C3%BC")) = Some (["195"%char] ++ ["188"%char]).
Proof. tests. Qed.

Example test_get_extension :
  isnone (get_extension (B "bola")) = true /\
  get_extension (B "bola.txt") = Some (B "txt") /\
  get_extension (B "bola.txt.jpg") = Some (B "jpg") /\
  isnone (get_extension (B "bola.txt/foo")) = true /\
  get_extension (B "bola.txt/foo.jpg") = Some (B "jpg").
Proof. tests. Qed.

(* ---------- tests/blogc-runserver/check_mime.c ---------- *)

Example test_guess_content_type :
  Some (guess_content_type (B "foo.html")) = Some (B "text/html") /\
  Some (guess_content_type (B "foo.jpg")) = Some (B "image/jpeg") /\
  Some (guess_content_type (B "foo.mp4")) = Some (B "video/mp4") /\
  Some (guess_content_type (B "foo.bola")) = Some (B "application/octet-stream").
Proof. tests. Qed.

Example test_guess_index :
  guess_index (fun p => existsb (beq p) [(B "dir/index.html")]) (B "dir") = Some (B "dir/index.html") /\
  guess_index (fun p => existsb (beq p) [(B "dir/index.htm")]) (B "dir") = Some (B "dir/index.htm") /\
  guess_index (fun p => existsb (beq p) [(B "dir/index.xhtml")]) (B "dir") = Some (B "dir/index.xhtml") /\
  isnone (guess_index (fun p => existsb (beq p) []) (B "dir")) = true.
Proof. tests. Qed.
