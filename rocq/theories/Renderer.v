(* Model of src/blogc/renderer.c and src/blogc/funcvars.c. *)
From Verif Require Import Base Utils Trie Template.

Definition vars : Type := trie bytes.

(* sign of strcmp on C strings, used by 386 *)
Fixpoint strcmp (a b : bytes) : comparison :=
  match a, b with
  | [], [] => Eq
  | [], _ :: _ => Lt
  | _ :: _, [] => Gt
  | x :: a', y :: b' => match N.compare (nb x) (nb y) with Eq => strcmp a' b' | o => o end
  end.

(* blogc_get_variable, 17-29. The global trie is never NULL in the program
   (main.c creates it); the local one may be. *)
Definition get_variable (name : bytes) (global : vars) (local : option vars) : option bytes :=
  match local with
  | Some l => match trie_lookup l name with
              | Some v => Some v
              | None => trie_lookup global name
              end
  | None => trie_lookup global name
  end.

(* foreach_value_variable, 52-73 (name and item not NULL) *)
Definition value_char (c : ascii) : ascii :=
  if is_digit c || is_upper c then c
  else if is_lower c then ascii_of_N (nb c - 32)
  else "_"%char.
Definition foreach_value_variable (name item : bytes) : bytes :=
  map value_char (name ++ B "__" ++ item).

(* strtol(s, &endptr, 10) on a non-empty string of digits: the value, at most
   LONG_MAX (64 bit); endptr is the end of the string *)
Definition LONG_MAX : Z := 2 ^ 63 - 1.
Definition digits_value (s : bytes) : Z :=
  fold_left (fun a c => a * 10 + (Z.of_N (nb c) - 48))%Z s 0%Z.
Definition strtol10 (s : bytes) : Z := Z.min (digits_value s) LONG_MAX.

(* bc_strndup(s, n) for an n that may be huge *)
Definition strndupZ (s : bytes) (n : Z) : bytes :=
  if (Z.of_nat (length s) <=? n)%Z then s else firstn (Z.to_nat n) s.

(* the loop of 112: index of the last byte that is not a digit, at least 0;
   [n] is the candidate *)
Fixpoint last_nondigit (var : bytes) (n : nat) : nat :=
  match n with
  | 0 => 0
  | S m => if is_digit (nth n var NUL) then last_nondigit var m else n
  end.

Section Render.
(* blogc_convert_datetime(date, format, &err): None when err is set. See
   Datetime.v. The warnings printed on stderr are not modelled. *)
Variable convert : bytes -> bytes -> option bytes.
(* funcs[], funcvars.c 14-35: the functions that inject variables into the
   global trie (they ask the operating system) *)
Variable funcs : list (bytes * (vars -> vars)).

(* blogc_funcvars_eval, funcvars.c 38-57 *)
Definition funcvars_eval (global : vars) (name : bytes) : vars :=
  match trie_lookup global name with
  | Some _ => global
  | None => match find (fun f => beq name (fst f)) funcs with
            | Some f => snd f global
            | None => global
            end
  end.

(* blogc_format_date, 32-49 (date not NULL) *)
Definition format_date (date : bytes) (global : vars) (local : option vars) : bytes :=
  match get_variable (B "DATE_FORMAT") global local with
  | None => date
  | Some fmt => match convert date fmt with Some r => r | None => date end
  end.

(* the suffix _[0-9]+ of a variable name, 104-125: the rest and the size *)
Definition split_size (name : bytes) : bytes * option Z :=
  let i := last_nondigit name (length name - 1) in
  if (nth i name NUL == "_"%char) && Nat.ltb (i + 1) (length name)
  then (firstn i name, Some (strtol10 (skipn (i + 1) name)))
  else (name, None).

(* blogc_format_variable, 76-181. [fname] is foreach_name, [fitem] the data of
   foreach_var (None when foreach_var is NULL; list items are never NULL). The
   result is the value and the global trie, which funcvars may have extended.
   An empty name reads var[SIZE_MAX] in 112. *)
Definition format_variable (name : bytes) (global : vars) (local : option vars)
  (fname fitem : option bytes) : res (option bytes * vars) :=
  match get_variable name global local with
  | Some v => Ok (Some v, global)
  | None =>
      if beq name (B "FOREACH_ITEM") then Ok (fitem, global)
      else if beq name (B "FOREACH_VALUE") then
        match fname, fitem with
        | Some n, Some i => Ok (get_variable (foreach_value_variable n i) global local, global)
        | _, _ => Ok (None, global)
        end
      else if Nat.eqb (length name) 0 then UB
      else
        let '(var, size) := split_size name in
        let fmt := ends_with var (B "_FORMATTED") in
        let var := if fmt then firstn (length var - 10) var else var in
        let '(value, global) :=
          match beq var (B "FOREACH_ITEM"), fitem with
          | true, Some i => (Some i, global)
          | _, _ =>
              match beq var (B "FOREACH_VALUE"), fname, fitem with
              | true, Some n, Some i => (get_variable (foreach_value_variable n i) global local, global)
              | _, _, _ =>
                  let g := funcvars_eval global var in (get_variable var g local, g)
              end
          end in
        match value with
        | None => Ok (None, global)
        | Some v =>
            let rv := if fmt then
                        if starts_with name (B "DATE_") then format_date v global local else v
                      else v in
            Ok (Some (match size with
                      | Some n => if (0 <? n)%Z then strndupZ rv n else rv
                      | None => rv
                      end), global)
        end
  end.

(* blogc_split_list_variable, 184-203: [] for NULL *)
Definition split_list_variable (name : bytes) (global : vars) (local : option vars) : list bytes :=
  match get_variable name global local with
  | None => []
  | Some v => filter (fun p => negb (beq p [])) (str_split v SP 0)
  end.

(* local variables of blogc_render, 213-237. Positions in the template list are
   indices; a pointer into a list of sources or items is the rest of the list
   from there ([] for NULL). if_not is only set within one iteration; cmp,
   evaluate, defined and config_value do not live longer either. foreach_start,
   foreach_name and foreach_var_start are set and cleared together:
   [r_for] is (foreach_start, foreach_name, foreach_var); foreach_var alone may
   become NULL, in 519, just before all are cleared. *)
Record rst : Type := Rst
  { r_pos : nat; r_out : bytes; r_cur : list vars; r_lstart : option nat;
    r_tmp : option vars; r_ifc : nat; r_for : option (nat * bytes * list bytes);
    r_in : bool; r_velse : bool; r_entries : list (option vars); r_global : vars }.

Definition r_set_pos (s : rst) (p : nat) : rst :=
  Rst p (r_out s) (r_cur s) (r_lstart s) (r_tmp s) (r_ifc s) (r_for s) (r_in s) (r_velse s) (r_entries s) (r_global s).
Definition r_set_out (s : rst) (o : bytes) (g : vars) : rst :=
  Rst (r_pos s) o (r_cur s) (r_lstart s) (r_tmp s) (r_ifc s) (r_for s) (r_in s) (r_velse s) (r_entries s) g.
Definition r_set_src (s : rst) (cur : list vars) (ls : option nat) (tmp : option vars) : rst :=
  Rst (r_pos s) (r_out s) cur ls tmp (r_ifc s) (r_for s) (r_in s) (r_velse s) (r_entries s) (r_global s).
Definition r_set_in (s : rst) (b : bool) : rst :=
  Rst (r_pos s) (r_out s) (r_cur s) (r_lstart s) (r_tmp s) (r_ifc s) (r_for s) b (r_velse s) (r_entries s) (r_global s).
Definition r_set_if (s : rst) (n : nat) (ve : bool) : rst :=
  Rst (r_pos s) (r_out s) (r_cur s) (r_lstart s) (r_tmp s) n (r_for s) (r_in s) ve (r_entries s) (r_global s).
Definition r_set_for (s : rst) (f : option (nat * bytes * list bytes)) : rst :=
  Rst (r_pos s) (r_out s) (r_cur s) (r_lstart s) (r_tmp s) (r_ifc s) f (r_in s) (r_velse s) (r_entries s) (r_global s).
Definition r_set_entries (s : rst) (l : list (option vars)) : rst :=
  Rst (r_pos s) (r_out s) (r_cur s) (r_lstart s) (r_tmp s) (r_ifc s) (r_for s) (r_in s) (r_velse s) l (r_global s).

(* inside_block ? tmp_source : NULL *)
Definition r_local (s : rst) : option vars := if r_in s then r_tmp s else None.
Definition r_fname (s : rst) : option bytes := match r_for s with Some (_, n, _) => Some n | None => None end.
Definition r_fitem (s : rst) : option bytes :=
  match r_for s with Some (_, _, i :: _) => Some i | _ => None end.

Definition r_var (s : rst) (name : bytes) : res (option bytes * vars) :=
  format_variable name (r_global s) (r_local s) (r_fname s) (r_fitem s).

(* while (node->type != ty) { tmp = tmp->next; node = tmp->data; }: the position
   of the next node of the type; past the end NULL is dereferenced. [l] is the
   template from [p] on. *)
Fixpoint skip_to (ty : ntype) (l : list tnode) (p : nat) : res nat :=
  match l with
  | [] => UB
  | n :: r => if ntype_eqb (n_type n) ty then Ok p else skip_to ty r (p + 1)
  end.

(* the while(1) of 410-438 (with_else) and 455-474: [l] is the template after
   the current node, [p] the position of its head. Returns the position, the
   if_count and whether an else stopped the walk. *)
Fixpoint skip_if (with_else : bool) (l : list tnode) (p ifc : nat) : res (nat * nat * bool) :=
  match l with
  | [] => UB
  | n :: r =>
      match n_type n with
      | TIf | TIfdef | TIfndef => skip_if with_else r (p + 1) (ifc + 1)
      | TElse => if with_else && Nat.eqb ifc 0 then Ok (p, ifc, true) else skip_if with_else r (p + 1) ifc
      | TEndif => if Nat.ltb 0 ifc then skip_if with_else r (p + 1) (ifc - 1) else Ok (p, ifc, false)
      | _ => skip_if with_else r (p + 1) ifc
      end
  end.

Section Template.
Variable tmpl : list tnode.
Variable sources : list vars.
Variable listing : bool.

(* walk to the next endblock, then tmp = tmp->next of 532 *)
Definition skip_block (s : rst) : res rst :=
  do p <- skip_to TEndblock (skipn (r_pos s) tmpl) (r_pos s) ; Ok (r_set_pos s (p + 1)).
Definition next (s : rst) : rst := r_set_pos s (r_pos s + 1).

Definition hd_opt (l : list vars) : option vars := match l with [] => None | x :: _ => Some x end.

(* 248-326; a NULL name would be undefined *)
Definition step_block (s0 : rst) (name : bytes) : res rst :=
  let s := r_set_in (r_set_if s0 0 (r_velse s0)) true in
  if beq name (B "entry") then
    if listing then skip_block s
    else Ok (next (r_set_src s sources (r_lstart s) (hd_opt sources)))
  else if beq name (B "listing_entry") then
    match r_entries s with
    | [] => skip_block s
    | e :: rest =>
        let s := r_set_entries s rest in
        match e with
        | None => skip_block s                                           (* the data of a link may be NULL *)
        | Some _ => if listing then Ok (next (r_set_src s [] (r_lstart s) e)) else skip_block s
        end
    end
  else if beq name (B "listing") || beq name (B "listing_empty") || beq name (B "listing_once") then
    if negb listing then skip_block s
    else if beq name (B "listing_empty") then
      match sources with [] => Ok (next s) | _ => skip_block s end
    else if beq name (B "listing") then
      match sources with
      | [] => skip_block s
      | _ =>
          let s := match r_cur s with
                   | [] => r_set_src s sources (Some (r_pos s)) (r_tmp s)
                   | _ => s
                   end in
          Ok (next (r_set_src s (r_cur s) (r_lstart s) (hd_opt (r_cur s))))
      end
    else Ok (next s)
  else Ok (next s).

(* 341-352 *)
Definition step_endblock (s0 : rst) : rst :=
  let s := r_set_in s0 false in
  match r_lstart s, r_cur s with
  | Some p, _ :: rest =>
      match rest with
      | [] => next (r_set_src s [] None (r_tmp s))
      | _ => r_set_pos (r_set_src s rest (Some p) (r_tmp s)) p
      end
  | _, _ => next s
  end.

Definition op_holds (o : top) (c : comparison) : bool :=
  match o, c with
  | ONeq, Eq => false | ONeq, _ => true
  | OEq, Eq => true | OLe, Eq => true | OGe, Eq => true
  | OLt, Lt => true | OLe, Lt => true
  | OGt, Gt => true | OGe, Gt => true
  | _, _ => false
  end.

(* 364-404: the condition; the global trie may change twice *)
Definition eval_cond (s : rst) (n : tnode) : res (bool * vars) :=
  do (defined, g1) <- match n_d0 n with
                      | Some v => r_var s v
                      | None => Ok (None, r_global s)
                      end ;
  let s1 := r_set_out s (r_out s) g1 in
  match n_op n with
  | ONone => Ok (match n_type n, defined with
                 | TIfndef, None => true
                 | TIfndef, Some _ => false
                 | _, Some _ => true
                 | _, None => false
                 end, g1)
  | op =>
      do (defined2, g2) <- match n_d1 n with
                           | None => Ok (None, g1)
                           | Some d =>
                               if Nat.leb 2 (length d) && (nth 0 d NUL == DQ) && (nth (length d - 1) d NUL == DQ)
                               then Ok (Some (firstn (length d - 2) (skipn 1 d)), g1)
                               else r_var s1 d
                           end ;
      Ok (match defined, defined2 with
          | Some a, Some b => op_holds op (strcmp a b)
          | _, _ => false
          end, g2)
  end.

(* 354-446 *)
Definition step_if (s0 : rst) (n : tnode) : res rst :=
  let s := r_set_if s0 0 (r_velse s0) in
  do (ev, g) <- eval_cond s n ;
  let s := r_set_out s (r_out s) g in
  if ev : bool then Ok (next (r_set_if s (r_ifc s) false))
  else
    do (p, ifc, stop) <- skip_if true (skipn (r_pos s + 1) tmpl) (r_pos s + 1) (r_ifc s) ;
    if stop : bool
    then Ok (r_set_pos (r_set_if s ifc true) p)
    else Ok (r_set_pos (r_set_if s ifc (r_velse s)) (p + 1)).

(* 448-477 *)
Definition step_else (s0 : rst) : res rst :=
  let s := r_set_if s0 0 (r_velse s0) in
  if r_velse s then Ok (next (r_set_if s 0 false))
  else
    do (p, ifc, _) <- skip_if false (skipn (r_pos s + 1) tmpl) (r_pos s + 1) 0 ;
    Ok (r_set_pos (r_set_if s ifc false) (p + 1)).

(* 487-515 *)
Definition step_foreach (s : rst) (n : tnode) : res rst :=
  match r_for s with
  | Some _ => Ok (next s)
  | None =>
      match n_d0 n with
      | Some v =>
          match split_list_variable v (r_global s) (r_local s) with
          | [] => do p <- skip_to TEndforeach (skipn (r_pos s) tmpl) (r_pos s) ; Ok (r_set_pos s (p + 1))
          | l => Ok (next (r_set_for s (Some (r_pos s, v, l))))
          end
      | None => do p <- skip_to TEndforeach (skipn (r_pos s) tmpl) (r_pos s) ; Ok (r_set_pos s (p + 1))
      end
  end.

(* 517-530 *)
Definition step_endforeach (s : rst) : rst :=
  match r_for s with
  | Some (p, n, _ :: ((_ :: _) as l)) => r_set_pos (r_set_for s (Some (p, n, l))) p
  | _ => next (r_set_for s None)
  end.

(* one iteration of the while loop, 238-533 *)
Definition r_step (s : rst) (n : tnode) : res rst :=
  match n_type n with
  | TContent =>                                                          (* 243-246 *)
      Ok (next (match n_d0 n with Some t => r_set_out s (r_out s ++ t) (r_global s) | None => s end))
  | TVariable =>                                                         (* 328-339 *)
      match n_d0 n with
      | Some v =>
          do (value, g) <- r_var s v ;
          Ok (next (r_set_out s (r_out s ++ match value with Some x => x | None => [] end) g))
      | None => Ok (next s)
      end
  | TBlock => match n_d0 n with Some name => step_block s name | None => UB end
  | TEndblock => Ok (step_endblock s)
  | TIf | TIfdef | TIfndef => step_if s n
  | TElse => step_else s
  | TEndif => Ok (next (r_set_if s (r_ifc s - 1) false))                  (* 479-485 *)
  | TForeach => step_foreach s n
  | TEndforeach => Ok (step_endforeach s)
  end.

Fixpoint r_loop (fuel : nat) (s : rst) : res rst :=
  match nth_error tmpl (r_pos s) with
  | None => Ok s
  | Some n =>
      match fuel with
      | 0 => OutOfFuel
      | S fuel => do s' <- r_step s n ; r_loop fuel s'
      end
  end.

Definition r_init (entries : list (option vars)) (config : vars) : rst :=
  Rst 0 [] [] None None 0 None false false entries config.

(* blogc_render, 206-539: None for a NULL template; otherwise the output and the
   global trie, which stays extended by funcvars *)
Definition render (fuel : nat) (entries : list (option vars)) (config : vars) : res (option bytes * vars) :=
  match tmpl with
  | [] => Ok (None, config)
  | _ => do s <- r_loop fuel (r_init entries config) ; Ok (Some (r_out s), r_global s)
  end.
End Template.
End Render.
