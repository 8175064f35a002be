(* What blogc-make knows of a site: which files, where, and how recent. *)
From Verif Require Import Base Trie Settings Filename BlogcCmd Rules RulesSpec BuildSpec Ctx.
From Coq Require Import ZArith.
#[local] Open Scope nat_scope.

Section Spec.
Variable W : Type.
Variable stat : W -> bytes -> option (Z * Z).
Variable look_at : W -> bytes -> node.

(* [f] is the file [name] of the site, as it is on the disk *)
Definition looked (w : W) (c : ctx) (name : bytes) (f : fctx) : Prop :=
  f_short f = name /\ f_path f = absolute c name /\
  match stat w (absolute c name) with
  | Some t => f_readable f = true /\ f_time f = t
  | None => f_readable f = false /\ f_time f = (0, 0)%Z
  end.

(* the source of a post, a page or the entry of the listing; None if its name would be empty *)
Definition source (w : W) (c : ctx) (blog prefix : option bytes) (slug : bytes) (x : option fctx) : Prop :=
  match generate_filename (look c (B "content_dir")) blog prefix (Some slug) (look c (B "source_ext")) with
  | Some n => exists f, x = Some f /\ f_slug f = Some slug /\ looked w c n f
  | None => x = None
  end.

(* the files at or below what [copy] names *)
Inductive holds (w : W) (c : ctx) : bytes -> bytes -> Prop :=
| H_file n : stat w (absolute c n) <> None -> look_at w (absolute c n) = File -> holds w c n n
| H_folder n names e m : stat w (absolute c n) <> None -> look_at w (absolute c n) = Folder names ->
    In e names -> e <> B "." -> e <> B ".." -> holds w c (n ++ B "/" ++ e) m -> holds w c n m.

(* the context is the site [st] describes, at [root], as it is on the disk *)
Definition site (w : W) (st : settings) (root short : bytes) (blogcfile atom : bytes) (c : ctx) : Prop :=
  c_st c = st /\ c_root c = root /\ c_short_output c = short /\ e_output_dir (c_exec c) = absolute c short /\
  looked w c blogcfile (c_settings c) /\
  looked w c (look_str c (B "template_dir") ++ B "/" ++ look_str c (B "main_template")) (c_main c) /\
  looked w c atom (c_atom c) /\
  match look c (B "listing_entry") with Some e => source w c (look c (B "blog_prefix")) None e (c_entry c) | None => c_entry c = None end /\
  Forall2 (source w c (look c (B "blog_prefix")) (look c (B "post_prefix"))) (match s_posts st with Some l => l | None => [] end) (c_posts c) /\
  Forall2 (source w c None None) (match s_pages st with Some l => l | None => [] end) (c_pages c) /\
  (forall f, In f (c_copy c) -> f_slug f = None /\ looked w c (f_short f) f) /\
  (forall m, (exists f, In f (c_copy c) /\ f_short f = m) <-> exists l n, s_copy st = Some l /\ In n l /\ holds w c n m).

Variable contents : W -> bytes -> option bytes.
Variable getcwd : W -> option bytes.
Variable mkstemp : W -> settings -> W * option bytes.
Variable output_env : option bytes.
(* the name of a file from the root directory *)
Definition full_name (w : W) (path abs : bytes) : Prop :=
  (exists r, path = "/"%char :: r) /\ abs = path \/
  ~ (exists r, path = "/"%char :: r) /\ exists d, getcwd w = Some ("/"%char :: d) /\ abs = ("/"%char :: d) ++ B "/" ++ path.
(* the context is the site of the blogcfile [path], read when the disk was [w0], with the
   feed's template that was configured or a new one *)
Definition made (w0 w : W) (path : bytes) (c : ctx) : Prop :=
  exists abs content st atom, full_name w0 path abs /\ contents w0 abs = Some content /\
    settings_parse content = Ok (inl st) /\
    site w st (dirname abs) (match output_env with Some o => o | None => B "_build" end) abs atom c /\
    match trie_lookup (s_settings st) (B "atom_template") with
    | Some t => c_atom_tmp c = false /\ atom = look_str c (B "template_dir") ++ B "/" ++ t
    | None => c_atom_tmp c = true /\ trie_lookup (s_settings st) (B "atom_legacy_entry_id") = None /\ snd (mkstemp w0 st) = Some atom
    end.
End Spec.

(* the rest of the world changes files while blogc-make watches; a turn of the loop may
   build with any tools that neither remove files nor make them older *)
Section Watch.
Variable W : Type.
Variable stat : W -> bytes -> option (Z * Z).
Variable start : W -> ctx -> Prop.                                    (* blogc-make has looked at a site *)
Variable turn : (ctx -> W -> W * res nat) -> option ctx -> W -> W * res (option ctx * bool).
Inductive watching : W -> option ctx -> Prop :=
| Watch_start w c : start w c -> watching w (Some c)
| Watch_change w w' c : watching w c -> later stat w w' -> watching w' c
| Watch_turn build w w' c c' b : watching w c -> (forall c w, later stat w (fst (build c w))) ->
    turn build c w = (w', Ok (c', b)) -> watching w' c'.
End Watch.
(* after 1970 *)
Definition after_1970 (t : Z * Z) : Prop := not_later (0%Z, 0%Z) t /\ t <> (0%Z, 0%Z).
