(* A site that is edited and built again and again: what may happen between two runs. *)
From Verif Require Import Base Settings Rules RulesSpec BuildSpec.
From Coq Require Import ZArith.
#[local] Open Scope nat_scope.

Section Spec.
Variable W : Type.
Variable stat : W -> bytes -> option (Z * Z).
Variable file : W -> bytes -> option bytes.

(* changed after all files of the output were written *)
Definition newer (c : ctx) (answer : option bytes -> option bytes) (w : W) (f : fctx) : Prop :=
  forall rule n d t, product c answer rule n d -> stat w (absolute c n) = Some t -> ~ not_later (f_time f) t.
(* the same file, seen again: only its time may differ *)
Definition alike (f f' : fctx) : Prop := f_path f' = f_path f /\ f_short f' = f_short f /\ f_slug f' = f_slug f.
(* it was not changed, perhaps touched *)
Definition kept (w w' : W) (f f' : fctx) : Prop := file w' (f_path f) = file w (f_path f) /\ not_later (f_time f) (f_time f').
(* the context of the same blogcfile, read again: [g] gives the new times; the template for
   feeds that blogc-make writes itself has another name each time *)
Definition reread (g : fctx -> fctx) (feed : fctx) (c : ctx) : ctx :=
  Ctx (c_exec c) (c_root c) (c_short_output c) (g (c_main c)) (if c_atom_tmp c then feed else g (c_atom c)) (c_atom_tmp c)
    (g (c_settings c)) (option_map g (c_entry c)) (map (option_map g) (c_posts c)) (map (option_map g) (c_pages c)) (map g (c_copy c)).
(* the files that are not written by blogc-make itself *)
Definition sources (c : ctx) : list fctx :=
  [c_settings c; c_main c] ++ (if c_atom_tmp c then [] else [c_atom c]) ++ somes [c_entry c] ++ somes (c_posts c) ++ somes (c_pages c) ++ c_copy c.

(* between two runs: the site of [c'] is what the first was, with some sources changed
   (later than the last run), or its blogcfile was changed (then all may be different).
   Files of the output may be removed. *)
Inductive edited (c : ctx) (answer : option bytes -> option bytes) (w : W) (c' : ctx) (answer' : option bytes -> option bytes) (w' : W) : Prop :=
| Ed_settings : newer c' answer' w (c_settings c') ->
    (forall rule n d, product c' answer' rule n d -> stat w' (absolute c' n) = None \/ stat w' (absolute c' n) = stat w (absolute c' n) /\ file w' (absolute c' n) = file w (absolute c' n)) ->
    edited c answer w c' answer' w'
| Ed_sources g feed : c' = reread g feed c -> (forall f, alike f (g f)) ->
    (forall f, In f (sources c) -> kept w w' f (g f) \/ newer c' answer' w (g f)) ->
    (c_atom_tmp c = true -> file w' (f_path feed) = file w (f_path (c_atom c))) ->
    (forall rule n d, product c' answer' rule n d -> stat w' (absolute c' n) = None \/ stat w' (absolute c' n) = stat w (absolute c' n) /\ file w' (absolute c' n) = file w (absolute c' n)) ->
    edited c answer w c' answer' w'.
(* what blogc says about the last page depends on the settings and the posts *)
Definition same_answers (c : ctx) (answer : option bytes -> option bytes) (w : W) (c' : ctx) (answer' : option bytes -> option bytes) (w' : W) : Prop :=
  c_st c' = c_st c -> map (option_map f_path) (c_posts c') = map (option_map f_path) (c_posts c) ->
  (forall f, In (Some f) (c_posts c) -> file w' (f_path f) = file w (f_path f)) -> forall tag, answer' tag = answer tag.
(* no file of the site is made in two ways *)
Definition distinct (c : ctx) (answer : option bytes -> option bytes) : Prop :=
  forall rule n d rule' n' d', product c answer rule n d -> product c answer rule' n' d' -> absolute c n' = absolute c n -> rule' = rule /\ n' = n /\ d' = d.
End Spec.
