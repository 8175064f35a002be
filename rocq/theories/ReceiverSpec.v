(* What git sends to a login shell, and what paths mean. *)
From Verif Require Import Base.

Definition verbs : list bytes := [B "git-receive-pack"; B "git-upload-pack"; B "git-upload-archive"].

(* a shell-quoted word as git writes it: pieces in single quotes, and exclamation
   marks and single quotes after a backslash *)
Inductive piece : Type := Quoted (s : bytes) | Escaped (c : ascii).
Definition piece_ok (p : piece) : Prop :=
  match p with Quoted s => ~ In SQ s | Escaped c => c = "!"%char \/ c = SQ end.
Definition piece_src (p : piece) : bytes :=
  match p with Quoted s => SQ :: s ++ [SQ] | Escaped c => [BSL; c] end.
Definition piece_val (p : piece) : bytes := match p with Quoted s => s | Escaped c => [c] end.
Definition word_src (ps : list piece) : bytes := flat_map piece_src ps.
Definition word_val (ps : list piece) : bytes := flat_map piece_val ps.

Definition without_slash (s : bytes) : bytes :=
  match s with c :: r => if Ascii.eqb c "/" then r else s | [] => [] end.
(* [s] is nothing, or a slash alone *)
Definition nothing (p : piece) : Prop := match p with Quoted s => s = [] \/ s = B "/" | Escaped _ => False end.
(* the path with the slash at its beginning removed. A piece that holds nothing but
   that slash leaves the next piece at the beginning. *)
Fixpoint relative (ps : list piece) : bytes :=
  match ps with
  | [] => []
  | Quoted s :: r => match without_slash s with [] => relative r | x => x ++ word_val r end
  | Escaped c :: r => c :: word_val r
  end.

(* the components of a path, and where it leads when followed lexically *)
Fixpoint components_go (cur s : bytes) : list bytes :=
  match s with
  | [] => [cur]
  | c :: r => if Ascii.eqb c "/" then cur :: components_go [] r else components_go (cur ++ [c]) r
  end.
Definition components (p : bytes) : list bytes := components_go [] p.
Fixpoint follow (at_ : list bytes) (cs : list bytes) : list bytes :=
  match cs with
  | [] => at_
  | c :: r => if list_eq_dec ascii_dec c [] then follow at_ r
              else if list_eq_dec ascii_dec c (B ".") then follow at_ r
              else if list_eq_dec ascii_dec c (B "..") then follow (removelast at_) r
              else follow (at_ ++ [c]) r
  end.
Definition leads_to (p : bytes) : list bytes := follow [] (components p).
Definition no_dotdot (p : bytes) : Prop := ~ In (B "..") (components p).
Definition below (dir p : list bytes) : Prop := exists r, p = dir ++ r.

(* the input of a pre-receive hook: one line for each updated ref *)
Record update : Type := Update { u_old : bytes; u_new : bytes; u_ref : bytes }.
Definition token (s : bytes) : Prop := s <> [] /\ Forall (fun c => c <> SP /\ c <> LF /\ c <> NUL) s.
Definition update_ok (u : update) : Prop := token (u_old u) /\ token (u_new u) /\ token (u_ref u).
Definition update_src (u : update) : bytes := u_old u ++ [SP] ++ u_new u ++ [SP] ++ u_ref u ++ [LF].
(* the new value of the branch [b] after its last update *)
Fixpoint pushed (l : list update) (b : bytes) : option bytes :=
  match l with
  | [] => None
  | u :: r => match pushed r b with
              | Some v => Some v
              | None => if list_eq_dec ascii_dec (u_ref u) (B "refs/heads/" ++ b) then Some (u_new u) else None
              end
  end.

(* a path as seen from a directory *)
Definition seen_from (cwd p : bytes) : bytes :=
  match p with c :: _ => if Ascii.eqb c "/" then p else cwd ++ B "/" ++ p | [] => cwd end.
