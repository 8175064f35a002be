(* Model of src/blogc-git-receiver: settings.c, main.c, post-receive.c and the first
   half of bgr_pre_receive_hook in pre-receive.c. *)
From Coq Require Import NArith.
From Verif Require Import Base Utils Config Effects Receiver Deploy BlogcCmd.
From Verif Require Content.

(* basename(3) of libgen.h, used by main.c 17-19 and pre-receive.c 155; on the
   reversed path *)
Fixpoint take_name (r : bytes) : bytes :=
  match r with c :: r' => if c == "/"%char then [] else c :: take_name r' | [] => [] end.
Definition basename (p : bytes) : bytes :=
  match skip_slashes (rev p) with
  | [] => match p with [] => B "." | _ => B "/" end
  | r => rev (take_name r)
  end.

(* what the programs find: the environment (None is NULL), the files, and where paths lead *)
Record renv : Type := Renv
  { r_base : option bytes                  (* BLOGC_GIT_RECEIVER_BASE_DIR *)
  ; r_builds : option bytes                (* BLOGC_GIT_RECEIVER_BUILDS_DIR *)
  ; r_home : option bytes
  ; r_git_dir : bool                       (* GIT_DIR is set *)
  ; r_stdin : bytes
  ; r_real : bytes -> option bytes         (* realpath(path, NULL) *)
  ; r_readable : bytes -> bool             (* access(path, R_OK) == 0 *)
  ; r_enter : bytes -> bool                (* chdir(path) == 0 *)
  ; r_contents : bytes -> option bytes }.  (* the file exists and bc_file_get_contents returns that (FileIO.v) *)

(* ---------- settings.c ---------- *)
(* bgr_settings_get_base_dir, 17-25 *)
Definition base_dir (e : renv) : option bytes := match r_base e with Some b => Some b | None => r_home e end.
(* bgr_settings_get_builds_dir, 28-36; printing NULL with %s is undefined *)
Definition builds_dir (e : renv) : res bytes :=
  match r_builds e with
  | Some b => Ok b
  | None => match base_dir e with Some bd => Ok (bd ++ B "/builds") | None => UB end
  end.
(* bgr_settings_get_section, 39-65: the first section for the repository *)
Definition is_section (e : renv) (bd repo s : bytes) : bool :=
  beq (firstn 5 s) (B "repo:") &&
  match r_real e (bd ++ B "/repos/" ++ skipn 5 s) with Some r => beq r repo | None => false end.
Definition get_section (e : renv) (cfg : config) (repo : bytes) : option bytes :=
  match base_dir e with
  | None => None
  | Some bd => find (is_section e bd repo) (config_list_sections cfg)
  end.
(* bgr_settings_parse, 68-105, without the warnings. The parser always returns
   (C15_config_total), so the other results are not distinguished. *)
Definition settings_parse (e : renv) : option config :=
  match base_dir e with
  | None => None
  | Some bd => match r_contents e (bd ++ B "/blogc-git-receiver.ini") with
               | None => None
               | Some text => match config_parse [] text with Ok (Datatypes.inl cfg) => Some cfg | _ => None end
               end
  end.
(* the value of a key in the section of the repository, as in pre-receive.c 112-123
   and post-receive.c 49-62 *)
Definition setting_of (e : renv) (repo key : bytes) : option bytes :=
  match settings_parse e with
  | None => None
  | Some cfg => match get_section e cfg repo with None => None | Some s => config_get cfg s key end
  end.

(* ---------- pre-receive.c ---------- *)
(* 112-139: the symbolic link to the published site *)
Definition site_link (e : renv) (repo : bytes) : bytes :=
  match setting_of e repo (B "symlink") with
  | Some v => if beq (firstn 1 v) (B "/") then v else repo ++ B "/" ++ v
  | None => repo ++ B "/htdocs"
  end.
(* 141-166: the commit of the last build, without GIT_DIR; None is an error *)
Definition last_ref (e : renv) (sym : bytes) : option bytes :=
  if r_readable e sym then
    match r_real e sym with
    | Some dir => match str_split (basename dir) "-"%char 2 with [r; _] => Some r | _ => None end
    | None => None
    end
  else None.
(* bgr_pre_receive_hook, 87-187: it ends with a status, or deploys a commit to the
   site behind a link *)
Inductive plan : Type := Stop (rv : nat) | Go (sym ref : bytes).
Definition hook_plan (e : renv) (argv0 : bytes) : plan :=
  match r_real e (dirname argv0) with
  | None => Stop 1
  | Some hooks =>
      let repo := dirname hooks in
      if r_enter e repo then
        let sym := site_link e repo in
        if r_git_dir e then match hook_ref (r_stdin e) with Some ref => Go sym ref | None => Stop 0 end
        else match last_ref e sym with Some ref => Go sym ref | None => Stop 1 end
      else Stop 1
  end.
(* 214-223: the first choice for the directory of the build *)
Definition output_dir (builds ref : bytes) (epoch : N) : bytes := builds ++ B "/" ++ ref ++ B "-" ++ Content.dec epoch.
(* bgr_pre_receive_hook, 87-313: [tmp] is the temporary directory, [epoch] the time
   and [old] where the link leads when it is resolved. The calls of Deploy.v on the
   link are on [sym]. Simplified: the builds directory is looked up before the
   calls of 190-212, not after them. *)
Definition pre_receive (e : renv) (argv0 tmp : bytes) (epoch : N) (old : bytes) : res (prog dcall) :=
  match hook_plan e argv0 with
  | Stop rv => Ok (Ret rv)
  | Go sym ref => do b <- builds_dir e ; Ok (deploy tmp (output_dir b ref epoch) old)
  end.
(* the commands of 196 and 241, 263 *)
Definition archive_cmd (ref tmp : bytes) : bytes :=
  B "git archive """ ++ ref ++ B """ | tar -x -C """ ++ tmp ++ B """ -f -".
Definition make_cmd (out : bytes) : bytes := B "OUTPUT_DIR=""" ++ out ++ B """ blogc-make -V all".
Definition gmake_cmd (impl : bytes) (cpus : N) (out : bytes) : bytes :=
  impl ++ B " -j" ++ Content.dec cpus ++ B " OUTPUT_DIR=""" ++ out ++ B """ BLOGC_GIT_RECEIVER=1".

(* ---------- post-receive.c ---------- *)
Definition pushurl_cmd : bytes := B "git config --local remote.mirror.pushurl > /dev/null".
Definition url_cmd : bytes := B "git config --local remote.mirror.url > /dev/null".
(* push, 71-85 *)
Definition push (mirror : bytes) : prog scall := Do (System (B "git push --mirror " ++ mirror)) (fun _ => Ret 0).
(* bgr_post_receive_hook, 16-86 *)
Definition post_receive (e : renv) (argv0 : bytes) : prog scall :=
  match r_real e (dirname argv0) with
  | None => Ret 1
  | Some hooks =>
      let repo := dirname hooks in
      Do (Chdir repo) (fun ok => if negb ok then Ret 1 else
      Do (System pushurl_cmd) (fun ok => if ok then push (B "mirror") else
      Do (System url_cmd) (fun ok => if ok then push (B "mirror") else
        match setting_of e repo (B "mirror") with Some m => push m | None => Ret 0 end)))
  end.

(* ---------- main.c ---------- *)
Inductive session : Type := PreReceive | PostReceive | Login (p : prog scall).
(* main, 13-39: [shell] and [ssh] are $SHELL and $SSH_ORIGINAL_COMMAND *)
Definition receiver_main (e : renv) (shell ssh : option bytes) (argv : list bytes) : session :=
  match argv with
  | [] => Login (Ret 1)
  | a0 :: rest =>
      if beq (basename a0) (B "pre-receive") then PreReceive
      else if beq (basename a0) (B "post-receive") then PostReceive
      else match rest with
           | [] => match ssh with
                   | Some cmd => if beq (firstn 1 a0) (B "/") then Login (bgr_shell (Some a0) (base_dir e) cmd) else Login (Ret 1)
                   | None => Login (Ret 1)
                   end
           | [a1; a2] => if beq a1 (B "-c") then Login (bgr_shell shell (base_dir e) a2) else Login (Ret 1)
           | _ => Login (Ret 1)
           end
  end.
