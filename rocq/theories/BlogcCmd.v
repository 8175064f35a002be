(* Model of src/blogc-make/exec.c: the command lines blogc-make gives to the shell,
   what it writes to their standard input, and what it makes of their result. The
   pipes of bm_exec_command are in Pipes.v. *)
From Verif Require Import Base Utils Trie Settings.

(* dirname(3) of glibc, used by exec.c 59 and exec-native.c; on the reversed path *)
Fixpoint skip_slashes (r : bytes) : bytes :=
  match r with c :: r' => if c == "/"%char then skip_slashes r' else r | [] => [] end.
Fixpoint skip_name (r : bytes) : bytes :=
  match r with c :: r' => if c == "/"%char then r else skip_name r' | [] => [] end.
Definition root_dir (slashes : nat) : bytes := if Nat.eqb slashes 2 then B "//" else B "/".
Definition dirname (p : bytes) : bytes :=
  match skip_slashes (rev p) with
  | [] => match p with [] => B "." | _ => root_dir (length p) end
  | r => match skip_name r with
         | [] => B "."
         | s => match skip_slashes s with [] => root_dir (length s) | d => rev d end
         end
  end.

Section Find.
Variable getenv : bytes -> option bytes.
Variable access : bytes -> bool.          (* access(path, X_OK) == 0 *)

(* bm_exec_find_binary, exec.c 31-73, built without MAKE_EMBEDDED *)
Definition find_binary (argv0 : option bytes) (bin env : bytes) : bytes :=
  match getenv env with
  | Some e => shell_quote (Some e)
  | None =>
      match argv0 with
      | Some a =>
          if existsb (fun c => c == "/"%char) a
          then let tmp := dirname a ++ B "/" ++ bin in
               if access tmp then shell_quote (Some tmp) else bin
          else bin
      | None => bin
      end
  end.
End Find.

(* list_variables, exec.c 211-217 *)
Definition list_variable (kv : bytes * option bytes) : bytes :=
  B " -D " ++ fst kv ++ B "=" ++ shell_quote (snd kv).
Definition list_variables (t : option (trie bytes)) : bytes :=
  match t with Some t => flat_map list_variable (trie_foreach t) | None => [] end.

(* " -X %s" with the argument quoted, when it is not NULL *)
Definition option_arg (o : bytes) (v : option bytes) : bytes :=
  match v with Some v => B " -" ++ o ++ B " " ++ shell_quote (Some v) | None => [] end.

(* bm_exec_build_blogc_cmd, exec.c 220-288; None is NULL *)
Definition build_blogc_cmd (blogc_bin : bytes) (st : option settings)
  (global_variables local_variables : option (trie bytes)) (print : option bytes)
  (listing : bool) (listing_entry template output : option bytes) (dev sources_stdin : bool) : bytes :=
  (match st with
   | Some st => match trie_lookup (s_settings st) (B "locale") with
                | Some l => B "LC_ALL=" ++ shell_quote (Some l) ++ B " "
                | None => []
                end
   | None => []
   end)
  ++ blogc_bin
  ++ (match st with
      | Some st =>
          (match s_tags st with
           | Some tags => B " -D MAKE_TAGS='" ++ strv_join tags (B " ") ++ B "'"
           | None => []
           end) ++ list_variables (Some (s_global st))
      | None => []
      end)
  ++ list_variables global_variables
  ++ list_variables local_variables
  ++ (if dev then B " -D MAKE_ENV_DEV=1 -D MAKE_ENV='dev'" else [])
  ++ (match print with Some p => B " -p " ++ p | None => [] end)
  ++ (if listing then B " -l" ++ option_arg (B "e") listing_entry else [])
  ++ option_arg (B "t") template
  ++ option_arg (B "o") output
  ++ (if sources_stdin then B " -i" else []).

(* the input of blogc, exec.c 299-304 and 381-386: one path a line *)
Definition sources_input (only_first : bool) (sources : list bytes) : bytes :=
  flat_map (fun s => s ++ [LF]) (if only_first then firstn 1 sources else sources).

(* bm_ctx_t, ctx.h: the fields exec.c reads *)
Record ectx : Type := Ectx
  { e_blogc : bytes; e_runserver : bytes; e_settings : settings; e_output_dir : bytes; e_dev : bool }.

(* bm_exec_blogc, exec.c 291-308: the command and its input *)
Definition exec_blogc (c : ectx) (gv lv : option (trie bytes)) (listing : bool)
  (entry : option bytes) (template output : bytes) (sources : list bytes) (only_first : bool) : bytes * bytes :=
  let input := sources_input only_first sources in
  (build_blogc_cmd (e_blogc c) (Some (e_settings c)) gv lv None listing entry (Some template)
     (Some output) (e_dev c) (negb (Nat.eqb (length input) 0)), input).

(* how bm_exec_command ends: an error of its own, or the status and the outputs
   of the command (None: nothing written) *)
Inductive cmd_result : Type := CmdError | CmdDone (status : nat) (out err : option bytes).

(* bm_exec_blogc, exec.c 322-330 and 369 *)
Definition exec_blogc_status (r : cmd_result) : nat :=
  match r with
  | CmdError => 1
  | CmdDone s _ _ => if Nat.eqb s 127 then 1 else s
  end.

(* bm_exec_blogc_get_variable, exec.c 373-389 *)
Definition exec_get_variable (c : ectx) (gv lv : option (trie bytes)) (variable : bytes) (listing : bool)
  (sources : list bytes) (only_first : bool) : bytes * bytes :=
  let input := sources_input only_first sources in
  (build_blogc_cmd (e_blogc c) (Some (e_settings c)) gv lv (Some variable) listing None None None
     (e_dev c) (negb (Nat.eqb (length input) 0)), input).

(* bm_exec_blogc_get_variable, exec.c 401-430: None is NULL *)
Definition get_variable_result (r : cmd_result) : option bytes :=
  match r with
  | CmdError => None
  | CmdDone s out _ =>
      if negb (Nat.eqb s 0) then None
      else match out with
           | Some o => Some (strndup o (length (cstr o) - 1))
           | None => None
           end
  end.

(* bm_exec_blogc_runserver, exec.c 441-465 *)
Definition exec_runserver (c : ectx) (host port threads : option bytes) : bytes :=
  e_runserver c ++ option_arg (B "t") host ++ option_arg (B "p") port ++ option_arg (B "m") threads
  ++ B " " ++ shell_quote (Some (e_output_dir c)).
