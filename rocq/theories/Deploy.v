(* Model of bgr_pre_receive_hook in src/blogc-git-receiver/pre-receive.c, 86-318, from
   the temporary directory on (185-318), and of what its calls do to the published site. *)
From Verif Require Import Base Effects.

(* the calls that matter; the outcome says whether they succeed, or whether the file
   is there. The calls that run for long are split in a beginning and an end. *)
Inductive dcall : Type :=
| Mkdtemp (d : bytes)                 (* 186 *)
| Archive                             (* git archive | tar, 192-204 *)
| ChdirTmp                            (* 207 *)
| Exists (d : bytes)                  (* access or stat *)
| Tree (f : bytes)                    (* access of a file of the commit, 234, 246 *)
| Probe (tool : bytes)                (* the tool can be run, 235-240, 249-262 *)
| BuildBegin (d : bytes) | BuildEnd (d : bytes)            (* 274 *)
| Realpath (d : bytes)                (* the symlink is resolved and leads to d, 283 *)
| UnlinkSym | SymlinkSym (d : bytes)                       (* 284, 292 *)
| RemoveBegin (d : bytes) | RemoveEnd (d : bytes).         (* rmdir_recursive *)

(* rmdir_recursive, 34-83: nothing if the directory does not exist; exit (2) if
   something cannot be removed *)
Definition rmdir_recursive (d : bytes) (k : prog dcall) : prog dcall :=
  Do (Exists d) (fun there =>
    if there then Do (RemoveBegin d) (fun _ => Do (RemoveEnd d) (fun ok => if ok then k else Ret 2))
    else k).

(* cleanup, 311-317 *)
Definition cleanup (tmp : bytes) (rv : nat) : prog dcall := rmdir_recursive tmp (Ret rv).

(* 274-309: [out] is output_dir and [old] what realpath returns if it succeeds *)
Definition publish (tmp out old : bytes) : prog dcall :=
  let fail := rmdir_recursive out (cleanup tmp 1) in
  Do (BuildBegin out) (fun _ =>
  Do (BuildEnd out) (fun ok =>
    if negb ok then fail
    else Do (Realpath old) (fun linked =>
      let link := Do (SymlinkSym out) (fun ok =>
                    if negb ok then fail
                    else if linked then rmdir_recursive old (cleanup tmp 0) else cleanup tmp 0) in
      if linked then Do UnlinkSym (fun ok => if ok then link else fail) else link))).

(* 185-273: [dir] is the first choice for output_dir, 221-229. The builds directory
   is not NULL. *)
Definition deploy (tmp dir old : bytes) : prog dcall :=
  Do (Mkdtemp tmp) (fun ok => if negb ok then Ret 1 else
  Do Archive (fun ok => if negb ok then cleanup tmp 1 else
  Do ChdirTmp (fun ok => if negb ok then cleanup tmp 1 else
  Do (Exists dir) (fun there =>
    let out := if there then dir ++ B "-" else dir in
    let make := Do (Probe (B "gmake")) (fun ok => if ok then publish tmp out old else
                Do (Probe (B "make")) (fun ok => if ok then publish tmp out old else cleanup tmp 1)) in
    Do (Tree (B "blogcfile")) (fun there =>
      if there then Do (Probe (B "blogc-make")) (fun ok => if ok then publish tmp out old else cleanup tmp 1)
      else Do (Tree (B "Makefile")) (fun there =>
        if there then make
        else Do (Tree (B "GNUMakefile")) (fun there => if there then make else cleanup tmp 0))))))).

(* ---------- what the calls do ---------- *)
Inductive dstatus : Type := Absent | Incomplete | Complete.
Record site : Type := Site { link : option bytes; dirs : bytes -> dstatus }.
Definition set_dir (w : site) (d : bytes) (s : dstatus) : site :=
  Site (link w) (fun x => if list_eq_dec ascii_dec x d then s else dirs w x).

(* A build writes to its output directory only. *)
Inductive dstep : site -> dcall -> bool -> site -> Prop :=
| S_mkdtemp w d : dirs w d = Absent -> dstep w (Mkdtemp d) true (set_dir w d Incomplete)
| S_mkdtemp_fails w d : dstep w (Mkdtemp d) false w
| S_archive w ok : dstep w Archive ok w
| S_chdir w ok : dstep w ChdirTmp ok w
| S_exists w d : dirs w d <> Absent -> dstep w (Exists d) true w
| S_exists_not w d : dirs w d = Absent -> dstep w (Exists d) false w
| S_tree w f ok : dstep w (Tree f) ok w
| S_probe w f ok : dstep w (Probe f) ok w
| S_build w d ok : dstep w (BuildBegin d) ok (set_dir w d Incomplete)
| S_built w d : dstep w (BuildEnd d) true (set_dir w d Complete)
| S_built_not w d s : dstep w (BuildEnd d) false (set_dir w d s)
| S_realpath w d : link w = Some d -> dirs w d <> Absent -> dstep w (Realpath d) true w
| S_realpath_not w d : (forall d, link w = Some d -> dirs w d = Absent) -> dstep w (Realpath d) false w
| S_unlink w : link w <> None -> dstep w UnlinkSym true (Site None (dirs w))
| S_unlink_fails w : dstep w UnlinkSym false w
| S_symlink w d : link w = None -> dstep w (SymlinkSym d) true (Site (Some d) (dirs w))
| S_symlink_fails w d : dstep w (SymlinkSym d) false w
| S_remove w d ok : dstep w (RemoveBegin d) ok (set_dir w d Incomplete)
| S_removed w d : dstep w (RemoveEnd d) true (set_dir w d Absent)
| S_removed_not w d : dstep w (RemoveEnd d) false w.

(* a complete build is published *)
Definition published (w : site) (d : bytes) : Prop := link w = Some d /\ dirs w d = Complete.
