(* Model of src/blogc-make/ctx.c, of bm_abspath in utils.c, of the parts of atom.c that make
   and remove the temporary template, and of the loop of reloader.c. No allocation fails. *)
From Verif Require Import Base Trie Settings Filename BlogcCmd Rules.
From Coq Require Import ZArith.
#[local] Open Scope nat_scope.

(* what stat and opendir say of a path besides the time: a file, or a directory with the
   names readdir gives, in its order, or one that cannot be opened *)
Inductive node : Type := File | Folder (names : list bytes) | Locked.

Section Ctx.
Variable W : Type.
Variable stat : W -> bytes -> option (Z * Z).
Variable look_at : W -> bytes -> node.
Variable contents : W -> bytes -> option bytes.     (* bc_file_get_contents, FileIO.v; None is an error *)
Variable getcwd : W -> option bytes.
Variable mkstemp : W -> settings -> W * option bytes.  (* mkstemp and write, atom.c 102-130; None is an error *)
Variable unlink : W -> bytes -> W.
Variable output_env : option bytes.                 (* getenv("OUTPUT_DIR") *)

(* bm_filectx_new_r, ctx.c 61-100. [fuel] is how deep the directories may be nested. *)
Fixpoint filectx_new_r (fuel : nat) (root : bytes) (w : W) (l : list fctx) (filename : bytes) : res (list fctx) :=
  match fuel with
  | 0 => OutOfFuel
  | S fuel =>
      let f := if starts_slash filename then filename else root ++ B "/" ++ filename in
      match stat w f with
      | None => Ok l
      | Some t =>
          match look_at w f with
          | Locked => Ok l
          | Folder names =>
              fold_left (fun (l : res (list fctx)) e =>
                do l <- l ;
                if beq e (B ".") || beq e (B "..") then Ok l
                else filectx_new_r fuel root w l (filename ++ B "/" ++ e)) names (Ok l)
          | File => Ok (l ++ [Fctx f filename None t true])
          end
      end
  end.
(* the loop over settings->copy, 289-295 *)
Fixpoint copy_files (fuel : nat) (root : bytes) (w : W) (l : list fctx) (names : list bytes) : res (list fctx) :=
  match names with
  | [] => Ok l
  | n :: r => do l <- filectx_new_r fuel root w l n ; copy_files fuel root w l r
  end.

(* bm_filectx_changed, 104-131, and bm_filectx_reload, 134-149, of a file that is not NULL *)
Definition changed (w : W) (f : fctx) : option (Z * Z) :=
  match stat w (f_path f) with
  | Some t => if Z.eqb (fst t) (fst (f_time f))
              then if Z.ltb (snd (f_time f)) (snd t) then Some t else None
              else if Z.ltb (fst (f_time f)) (fst t) then Some t else None
  | None => None
  end.
Definition reload_file (w : W) (f : fctx) : fctx :=
  match changed w f with
  | Some t => Fctx (f_path f) (f_short f) (f_slug f) t true
  | None => f
  end.

(* bm_abspath, utils.c 106-130 *)
Definition abspath (w : W) (path : bytes) : option bytes :=
  if starts_slash path then Some path
  else match getcwd w with
       | Some d => if starts_slash d then Some (d ++ B "/" ++ path) else None
       | None => None
       end.

(* bm_atom_deploy, atom.c 89-131 *)
Definition atom_deploy (w : W) (st : settings) : W * option bytes :=
  match trie_lookup (s_settings st) (B "atom_legacy_entry_id") with
  | Some _ => (w, None)
  | None => mkstemp w st
  end.

(* bm_filectx_new, 25-58, of a name that is not NULL, without a slug *)
Definition file (root : bytes) (w : W) (name : bytes) : fctx :=
  let f := if starts_slash name then name else root ++ B "/" ++ name in
  match stat w f with
  | None => Fctx f name None (0%Z, 0%Z) false
  | Some t => Fctx f name None t true
  end.
Definition lk (st : settings) (k : bytes) : option bytes := trie_lookup (s_settings st) k.
(* bc_strdup_printf("%s", NULL) is undefined; main_template has a default *)
Definition lk_str (st : settings) (k : bytes) : bytes := match lk st k with Some v => v | None => [] end.

(* bm_ctx_free_internal, 342-377: of what it does, only the removal of the template *)
Definition free_internal (w : W) (c : ctx) : W := if c_atom_tmp c then unlink w (f_path (c_atom c)) else w.

(* bm_ctx_new, 164-298, after the file is parsed: 195-298; the names of the
   programs and -D come from bm_exec_find_binary or from [base] *)
Definition fill (fuel : nat) (blogc runserver : bytes) (dev : bool) (w : W) (abs : bytes) (st : settings)
  (atom : bytes) (tmp : bool) : res ctx :=
  let root := dirname abs in
  let short := match output_env with Some o => o | None => B "_build" end in
  let output := if starts_slash short then short else root ++ B "/" ++ short in
  let template_dir := lk_str st (B "template_dir") in
  let content := lk st (B "content_dir") in
  let source gp p n := filectx_new stat root w (generate_filename content gp p (Some n) (lk st (B "source_ext"))) (Some n) in
  do copies <- copy_files fuel root w [] (match s_copy st with Some l => l | None => [] end) ;
  Ok (Ctx (Ectx blogc runserver st output dev) root short
        (file root w (template_dir ++ B "/" ++ lk_str st (B "main_template"))) (file root w atom) tmp
        (file root w abs)
        (match lk st (B "listing_entry") with Some e => source (lk st (B "blog_prefix")) None e | None => None end)
        (map (source (lk st (B "blog_prefix")) (lk st (B "post_prefix"))) (match s_posts st with Some l => l | None => [] end))
        (map (source None None) (match s_pages st with Some l => l | None => [] end))
        copies).

(* bm_ctx_new, 164-298; None is NULL with an error *)
Definition ctx_new (fuel : nat) (base : option ctx) (blogc runserver : bytes) (w : W) (path : bytes) : W * res (option ctx) :=
  match abspath w path with
  | None => (w, Ok None)
  | Some abs =>
      match contents w abs with
      | None => (w, Ok None)
      | Some content =>
          match settings_parse content with
          | UB => (w, UB)
          | OutOfFuel => (w, OutOfFuel)
          | Ok (inr _) => (w, Ok None)
          | Ok (inl st) =>
              let (w, atom) :=
                match lk st (B "atom_template") with
                | Some t => (w, Some (lk_str st (B "template_dir") ++ B "/" ++ t))
                | None => atom_deploy w st
                end in
              match atom with
              | None => (w, Ok None)
              | Some atom =>
                  let tmp := match lk st (B "atom_template") with Some _ => false | None => true end in
                  match base with
                  | None => (w, do c <- fill fuel blogc runserver false w abs st atom tmp ; Ok (Some c))
                  | Some b =>
                      let w := free_internal w b in
                      (w, do c <- fill fuel (e_blogc (c_exec b)) (e_runserver (c_exec b)) (e_dev (c_exec b)) w abs st atom tmp ;
                          Ok (Some c))
                  end
              end
          end
      end
  end.

(* bm_ctx_reload, 301-339: the context afterwards, and what it returns. settings_fctx is
   never NULL. *)
Definition ctx_reload (fuel : nat) (c : option ctx) (w : W) : W * res (option ctx * bool) :=
  match c with
  | None => (w, Ok (None, false))
  | Some c =>
      match changed w (c_settings c) with
      | Some _ =>
          let (w, r) := ctx_new fuel (Some c) [] [] w (f_path (c_settings c)) in
          (w, do c <- r ; Ok (c, match c with Some _ => true | None => false end))
      | None =>
          let up := option_map (reload_file w) in
          (w, Ok (Some (Ctx (c_exec c) (c_root c) (c_short_output c) (reload_file w (c_main c)) (reload_file w (c_atom c))
                    (c_atom_tmp c) (c_settings c) (up (c_entry c)) (map up (c_posts c)) (map up (c_pages c))
                    (map (reload_file w) (c_copy c))), true))
      end
  end.

(* one turn of the loop of bm_reloader_run, reloader.c 64-78, with rule_exec = all_exec:
   whether the site was rebuilt *)
Variable build : ctx -> W -> W * res nat.
Definition turn (fuel : nat) (c : option ctx) (w : W) : W * res (option ctx * bool) :=
  let (w, r) := ctx_reload fuel c w in
  match r with
  | Ok (Some c, true) =>
      let (w, x) := build c w in
      (w, match x with Ok n => Ok (Some c, Nat.eqb n 0) | UB => UB | OutOfFuel => OutOfFuel end)
  | Ok (c, _) => (w, Ok (c, false))
  | UB => (w, UB)
  | OutOfFuel => (w, OutOfFuel)
  end.
End Ctx.
