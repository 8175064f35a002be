(* Model of src/blogc-git-receiver: shell-command-parser.c, shell.c and
   pre-receive-parser.c. *)
From Verif Require Import Base Utils Trie Effects.

(* ---------- shell-command-parser.c ---------- *)
(* command_state_t, 10-16. REPO carries the bytes from start to current. *)
Inductive cstate : Type := StartCommand | StartRepo | StartRepo2 | Repo (tok : bytes) | StartEscaped.

(* the test of 35-40, for a space at [current] *)
Definition known_command (command : bytes) (current : nat) : bool :=
  (Nat.eqb current 16 && beq (firstn 16 command) (B "git-receive-pack"))
  || (Nat.eqb current 15 && beq (firstn 15 command) (B "git-upload-pack"))
  || (Nat.eqb current 18 && beq (firstn 18 command) (B "git-upload-archive")).

(* the for loop, 28-87; None is goto error *)
Fixpoint command_loop (command rest : bytes) (current : nat) (st : cstate) (rv : bytes) : option bytes :=
  match rest with
  | [] => Some rv
  | c :: r =>
      match st with
      | StartCommand =>
          if c == SP then
            if known_command command current then command_loop command r (current + 1) StartRepo rv else None
          else command_loop command r (current + 1) st rv
      | StartRepo =>
          if c == SQ then command_loop command r (current + 1) StartRepo2 rv
          else if c == BSL then command_loop command r (current + 1) StartEscaped rv
          else None
      | StartRepo2 =>
          if c == SQ then command_loop command r (current + 1) StartRepo rv
          else command_loop command r (current + 1)
                 (Repo (if Nat.eqb (length rv) 0 && (c == "/"%char) then [] else [c])) rv
      | StartEscaped =>
          if (c == "!"%char) || (c == SQ) then command_loop command r (current + 1) StartRepo (rv ++ [c])
          else None
      | Repo tok =>
          if c == SQ then command_loop command r (current + 1) StartRepo (rv ++ tok)
          else command_loop command r (current + 1) (Repo (tok ++ [c])) rv
      end
  end.

(* bgr_shell_command_parse, 19-96, on a C string *)
Definition shell_command_parse (command : bytes) : option bytes :=
  match command_loop command command 0 StartCommand [] with
  | Some (c :: r) => Some (c :: r)
  | _ => None
  end.

(* ---------- shell.c ---------- *)
(* the calls made by bgr_shell; the outcome says whether they succeed (for Access
   and Lexists: whether the file is there) *)
Inductive scall : Type :=
| Access (path : bytes) | System (cmd : bytes) | Chdir (path : bytes) | Mkdir (path : bytes)
| Lexists (path : bytes) | Unlink (path : bytes) | Symlink (target path : bytes)
| GitShell (cmd : bytes).        (* execlp ("git-shell", "git-shell", "-c", cmd) *)

Definition first_word (cmd : bytes) : bytes :=        (* 151-154 *)
  (fix go (s : bytes) := match s with [] => [] | c :: r => if c == SP then [] else c :: go r end) cmd.

Definition must (a : scall) (k : prog scall) : prog scall := Do a (fun ok => if ok then k else Ret 1).

(* git_exec, 139-184 (without the test environment of 168-178). If execlp returns
   it has failed. *)
Definition git_exec (bd argv2 quoted_repo : bytes) : prog scall :=
  must (Chdir bd)
    (let command := first_word argv2 in
     if Nat.ltb 4096 (length command + length quoted_repo + 2) then Ret 1
     else Do (GitShell (command ++ [SP] ++ quoted_repo)) (fun ok => if ok then Ret 0 else Ret 1)).

Definition relink (self name : bytes) (k : prog scall) : prog scall :=   (* 104-120, 122-137 *)
  Do (Lexists name) (fun there =>
    let link := must (Symlink self name) k in
    if there then must (Unlink name) link else link).

(* bgr_shell, 28-185: [self] is $SHELL, [bd] the base directory; None is NULL *)
Definition bgr_shell (self bd : option bytes) (argv2 : bytes) : prog scall :=
  match self, bd with
  | Some self, Some bd =>
      match shell_command_parse argv2 with
      | None => Ret 1
      | Some tmp =>
          let repo := bd ++ B "/repos/" ++ tmp in
          let quoted := shell_quote (Some repo) in
          if beq (firstn 11 argv2) (B "git-upload-") then git_exec bd argv2 quoted
          else
            let hooks :=
              must (Chdir repo)
                (let inside := must (Chdir (B "hooks"))
                                 (relink self (B "pre-receive") (relink self (B "post-receive") (git_exec bd argv2 quoted))) in
                 Do (Access (B "hooks")) (fun there => if there then inside else must (Mkdir (B "hooks")) inside)) in
            Do (Access repo) (fun there =>
              if there then hooks
              else must (System (B "git init --bare " ++ quoted ++ B " > /dev/null")) hooks)
      end
  | _, _ => Ret 1
  end.

(* ---------- pre-receive-parser.c ---------- *)
Inductive istate : Type := StartOld | Old | StartNew | New | StartRef | Ref.

(* the for loop, 30-70. [tok] are the bytes from start to current, [new] those from
   start_new to start - 1, the space before the ref *)
Fixpoint hook_loop (rest : bytes) (st : istate) (tok new : bytes) (rv : trie bytes) : trie bytes :=
  match rest with
  | [] => rv
  | c :: r =>
      match st with
      | StartOld => hook_loop r Old [] new rv
      | Old => if c == SP then hook_loop r StartNew tok new rv else hook_loop r st tok new rv
      | StartNew => hook_loop r New [c] new rv
      | New => if c == SP then hook_loop r StartRef [] tok rv else hook_loop r st (tok ++ [c]) new rv
      | StartRef => hook_loop r Ref [c] new rv
      | Ref => if c == LF then
                 hook_loop r StartOld tok new
                   (if Nat.ltb 11 (length tok) && beq (firstn 11 tok) (B "refs/heads/")
                    then trie_insert rv (cstr (skipn 11 tok)) (cstr new) else rv)
               else hook_loop r st (tok ++ [c]) new rv
      end
  end.

(* bgr_pre_receive_parse, 20-79; strncmp and bc_strndup stop at a NUL *)
Definition pre_receive_parse (input : bytes) : option (trie bytes) :=
  let rv := hook_loop input StartOld [] [] (@trie_new bytes) in
  if Nat.eqb (trie_size rv) 0 then None else Some rv.

(* the choice of pre-receive.c, 157-167: master, else main. bc_trie_lookup of NULL
   and bc_strdup of NULL are NULL. *)
Definition hook_ref (input : bytes) : option bytes :=
  match pre_receive_parse input with
  | None => None
  | Some t => match trie_lookup t (B "master") with
              | Some v => Some v
              | None => trie_lookup t (B "main")
              end
  end.
