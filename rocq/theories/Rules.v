(* Model of src/blogc-make/rules.c, and of bm_filectx_new in ctx.c. What the rules
   print is not modelled, and no allocation fails. *)
From Verif Require Import Base Utils Trie Settings Filename Source BlogcCmd.
From Verif Require Content.
From Coq Require Import ZArith.
#[local] Open Scope nat_scope.

(* bm_filectx_t, ctx.h: a file as it was when blogc-make looked at it; the time is
   st_mtim, in seconds and nanoseconds *)
Record fctx : Type := Fctx
  { f_path : bytes; f_short : bytes; f_slug : option bytes; f_time : Z * Z; f_readable : bool }.

(* bm_ctx_t, ctx.h, without verbose. main_template_fctx, atom_template_fctx and
   settings_fctx are never NULL, nor are the elements of copy_fctx *)
Record ctx : Type := Ctx
  { c_exec : ectx; c_root : bytes; c_short_output : bytes; c_main : fctx; c_atom : fctx; c_atom_tmp : bool;
    c_settings : fctx; c_entry : option fctx; c_posts : list (option fctx); c_pages : list (option fctx); c_copy : list fctx }.

(* ctx->settings, and bm_ctx_settings_lookup and bm_ctx_settings_lookup_str, ctx.c *)
Definition c_st (c : ctx) : settings := e_settings (c_exec c).
Definition look (c : ctx) (k : bytes) : option bytes := trie_lookup (s_settings (c_st c)) k.
Definition look_str (c : ctx) (k : bytes) : bytes := match look c k with Some v => v | None => [] end.

(* ---- bm_rule_need_rebuild, 993-1040 ---- *)
(* the test of one file, 1019-1034 *)
Definition newer (s o : Z * Z) : bool :=
  if Z.eqb (fst s) (fst o) then Z.ltb (snd o) (snd s) else Z.ltb (fst o) (fst s).
Definition stale (o : fctx) (s : option fctx) : bool :=
  match s with
  | None => true
  | Some s => if negb (f_readable s) then true else newer (f_time s) (f_time o)
  end.
Definition opt_list {A} (x : option A) : list (option A) := match x with Some x => [Some x] | None => [] end.
Definition need_rebuild (sources : list (option fctx)) (settings listing_entry template : option fctx)
  (output : option fctx) (only_first : bool) : bool :=
  match output with
  | None => true
  | Some o =>
      if negb (f_readable o) then true
      else existsb (stale o) (opt_list settings ++ opt_list template ++ opt_list listing_entry
                              ++ (if only_first then firstn 1 sources else sources))
  end.

(* ---- bm_rule_parse_args, 894-922 ---- *)
(* strchr: what stands before the first [c] and what follows it *)
Fixpoint cut (c : ascii) (s : bytes) : option (bytes * bytes) :=
  match s with
  | [] => None
  | x :: r => if x == c then Some ([], r) else match cut c r with Some (a, b) => Some (x :: a, b) | None => None end
  end.
(* the loop, 903-915; every turn consumes at least the '=' *)
Fixpoint args_loop (fuel : nat) (rv : trie bytes) (rest : bytes) : option (trie bytes) :=
  match fuel with
  | 0 => None
  | S fuel =>
      match cut "="%char rest with
      | None => None                                        (* kv_sep == NULL: 916-919 *)
      | Some (key, rest) =>
          match cut ","%char rest with
          | None => Some (trie_insert rv key rest)
          | Some (value, rest) => args_loop fuel (trie_insert rv key value) rest
          end
      end
  end.
Definition parse_rule_args (sep : bytes) : option (trie bytes) :=
  match sep with
  | c :: r => if c == ":"%char then args_loop (S (length r)) trie_new r else None
  | [] => None
  end.

(* ---- the variables of the rules ---- *)
(* posts_ordering, 21-40 *)
Definition posts_ordering (c : ctx) (vars : trie bytes) (variable : bytes) : trie bytes :=
  let asc := strcaseeq (look_str c variable) (B "asc") in
  let sort := str_to_bool (look c (B "posts_sort")) in
  let vars := if sort then trie_insert vars (B "FILTER_SORT") (B "1") else vars in
  if (sort && asc) || (negb sort && negb asc) then trie_insert vars (B "FILTER_REVERSE") (B "1") else vars.

(* posts_pagination, 43-54; the setting always has a value (Settings.v), if it had
   none a NULL would be inserted *)
Definition posts_pagination (c : ctx) (vars : trie bytes) (variable : bytes) : trie bytes :=
  if Z.leb 0 (fst (strtol (look_str c variable))) then
    trie_insert (trie_insert vars (B "FILTER_PAGE") (B "1")) (B "FILTER_PER_PAGE") (look_str c variable)
  else vars.

(* posts_pagination_enabled, 57-64 *)
Definition posts_pagination_enabled (c : ctx) (variable : bytes) : bool :=
  negb (Z.eqb (fst (strtol (look_str c variable))) 0).

(* index_exec 100-106, tags_exec 573-579 *)
Definition list_vars (c : ctx) (rule : bytes) : trie bytes :=
  let v := posts_pagination c trie_new (B "posts_per_page") in
  let v := posts_ordering c v (B "html_order") in
  let v := trie_insert v (B "DATE_FORMAT") (look_str c (B "date_format")) in
  let v := trie_insert v (B "MAKE_RULE") rule in
  trie_insert v (B "MAKE_TYPE") (B "post").
(* atom_exec 161-166, atom_tags_exec 225-230 *)
Definition atom_vars (c : ctx) (rule : bytes) : trie bytes :=
  let v := posts_pagination c trie_new (B "atom_posts_per_page") in
  let v := posts_ordering c v (B "atom_order") in
  let v := trie_insert v (B "DATE_FORMAT") (B "%Y-%m-%dT%H:%M:%SZ") in
  let v := trie_insert v (B "MAKE_RULE") rule in
  trie_insert v (B "MAKE_TYPE") (B "atom").
(* pagination_exec 309-318, pagination_tags_exec 401-410 *)
Definition pagination_vars (c : ctx) (rule : bytes) : trie bytes :=
  let v := trie_insert trie_new (B "FILTER_PER_PAGE") (look_str c (B "posts_per_page")) in
  let v := posts_ordering c v (B "html_order") in
  let v := trie_insert v (B "DATE_FORMAT") (look_str c (B "date_format")) in
  let v := trie_insert v (B "MAKE_RULE") rule in
  trie_insert v (B "MAKE_TYPE") (B "post").
(* posts_exec 501-507; date_format always has a value *)
Definition posts_vars (c : ctx) : trie bytes :=
  let v := trie_insert trie_new (B "IS_POST") (B "1") in
  let v := trie_insert v (B "DATE_FORMAT") (look_str c (B "date_format")) in
  let v := posts_ordering c v (B "html_order") in
  let v := trie_insert v (B "MAKE_RULE") (B "posts") in
  trie_insert v (B "MAKE_TYPE") (B "post").
(* pages_exec 635-639 *)
Definition pages_vars (c : ctx) : trie bytes :=
  let v := trie_insert trie_new (B "DATE_FORMAT") (look_str c (B "date_format")) in
  let v := trie_insert v (B "MAKE_RULE") (B "pages") in
  trie_insert v (B "MAKE_TYPE") (B "page").

(* "%d" or "%zu" of a count *)
Definition digits (n : nat) : bytes := Content.dec (N.of_nat n).

Section Rules.
Variable W : Type.                                              (* the file system and the rest of the world *)
Variable stat : W -> bytes -> option (Z * Z).
Variable command : W -> bytes -> bytes -> W * cmd_result.       (* bm_exec_command *)
Variable cp : W -> fctx -> fctx -> W * nat.                     (* bm_exec_native_cp *)
Variable rm : W -> bytes -> fctx -> W * nat.                    (* bm_exec_native_rm *)
Variable helper : bytes -> ctx -> option (trie bytes) -> W -> W * nat.   (* runserver, watch and atom_dump *)

(* bm_filectx_new, ctx.c 25-58, with st = NULL *)
Definition filectx_new (root : bytes) (w : W) (filename : option bytes) (slug : option bytes) : option fctx :=
  match filename with
  | None => None
  | Some n =>
      let f := if starts_slash n then n else root ++ B "/" ++ n in
      Some (match stat w f with
            | None => Fctx f n slug (0%Z, 0%Z) false
            | Some t => Fctx f n slug t true
            end)
  end.

(* the paths of the sources; l->data is read, whether it is NULL or not *)
Fixpoint paths (l : list (option fctx)) : res (list bytes) :=
  match l with
  | [] => Ok []
  | None :: _ => UB
  | Some f :: r => do p <- paths r ; Ok (f_path f :: p)
  end.

(* bm_exec_blogc, exec.c 291-370 *)
Definition run_blogc (c : ctx) (gv lv : option (trie bytes)) (listing : bool) (entry : option fctx) (template output : fctx)
  (sources : list (option fctx)) (only_first : bool) (w : W) : W * res nat :=
  match paths (if only_first then firstn 1 sources else sources) with
  | Ok p =>
      let (cmd, input) := exec_blogc (c_exec c) gv lv listing (match entry with Some e => Some (f_path e) | None => None end)
                            (f_path template) (f_path output) p only_first in
      let (w, r) := command w cmd input in (w, Ok (exec_blogc_status r))
  | UB => (w, UB)
  | OutOfFuel => (w, OutOfFuel)
  end.
(* bm_exec_blogc_get_variable, exec.c 373-430, for a listing of all posts *)
Definition ask_blogc (c : ctx) (gv lv : option (trie bytes)) (variable : bytes) (w : W) : W * res (option bytes) :=
  match paths (c_posts c) with
  | Ok p =>
      let (cmd, input) := exec_get_variable (c_exec c) gv lv variable true p false in
      let (w, r) := command w cmd input in (w, Ok (get_variable_result r))
  | UB => (w, UB)
  | OutOfFuel => (w, OutOfFuel)
  end.

(* the for loops of the exec functions: leave at the first status that is not 0 *)
Fixpoint run_all {A} (step : A -> W -> W * res nat) (l : list A) (w : W) : W * res nat :=
  match l with
  | [] => (w, Ok 0)
  | a :: r => let (w, x) := step a w in match x with Ok 0 => run_all step r w | _ => (w, x) end
  end.

Definition out (c : ctx) (w : W) (name : option bytes) : option fctx := filectx_new (c_root c) w name None.
Definition dir (c : ctx) : option bytes := Some (c_short_output c).

(* ---- index ---- *)
(* index_outputlist, 69-90 *)
Definition index_outputs (c : ctx) (w : W) : list (option fctx) :=
  match s_posts (c_st c) with
  | None => []
  | Some _ =>
      if posts_pagination_enabled c (B "posts_per_page") then
        [out c w (generate_filename (dir c) (look c (B "blog_prefix")) (look c (B "index_prefix")) None (look c (B "html_ext")))]
      else []
  end.
(* a listing of all posts, built if needed: 108-120, 325-332, 453-460, 589-596 *)
Definition build_listing (c : ctx) (vars : trie bytes) (o : option fctx) (w : W) : W * res nat :=
  match o with
  | None => (w, Ok 0)
  | Some f =>
      if need_rebuild (c_posts c) (Some (c_settings c)) (c_entry c) (Some (c_main c)) o false then
        run_blogc c (Some vars) None true (c_entry c) (c_main c) f (c_posts c) false w
      else (w, Ok 0)
  end.
(* index_exec, 92-125 *)
Definition index_exec (c : ctx) (outputs : list (option fctx)) (w : W) : W * res nat :=
  match s_posts (c_st c) with
  | None => (w, Ok 0)
  | Some _ => run_all (build_listing c (list_vars c (B "index"))) outputs w
  end.

(* ---- atom, atom_tags ---- *)
(* atom_outputlist, 130-151 *)
Definition atom_outputs (c : ctx) (w : W) : list (option fctx) :=
  match s_posts (c_st c) with
  | None => []
  | Some _ =>
      if posts_pagination_enabled c (B "atom_posts_per_page") then
        [out c w (generate_filename (dir c) (look c (B "blog_prefix")) (look c (B "atom_prefix")) None (look c (B "atom_ext")))]
      else []
  end.
(* 168-181, 240-248 *)
Definition build_atom (c : ctx) (vars : trie bytes) (o : option fctx) (w : W) : W * res nat :=
  match o with
  | None => (w, Ok 0)
  | Some f =>
      if need_rebuild (c_posts c) (Some (c_settings c)) None (if c_atom_tmp c then None else Some (c_atom c)) o false then
        run_blogc c (Some vars) None true None (c_atom c) f (c_posts c) false w
      else (w, Ok 0)
  end.
(* atom_exec, 153-186 *)
Definition atom_exec (c : ctx) (outputs : list (option fctx)) (w : W) : W * res nat :=
  match s_posts (c_st c) with
  | None => (w, Ok 0)
  | Some _ => run_all (build_atom c (atom_vars c (B "atom"))) outputs w
  end.
(* atom_tags_outputlist, 191-214 *)
Definition atom_tags_outputs (c : ctx) (w : W) : list (option fctx) :=
  match s_posts (c_st c), s_tags (c_st c) with
  | Some _, Some tags =>
      if posts_pagination_enabled c (B "atom_posts_per_page") then
        map (fun t => out c w (generate_filename (dir c) (look c (B "blog_prefix")) (look c (B "atom_prefix")) (Some t) (look c (B "atom_ext")))) tags
      else []
  | _, _ => []
  end.
(* the variables at each turn: FILTER_TAG is replaced in the same trie, 237-238 and
   586-587. A turn whose file is NULL does not replace it, which nothing sees. *)
Fixpoint tag_vars (vars : trie bytes) (tags : list bytes) : list (trie bytes) :=
  match tags with
  | [] => []
  | t :: r => let v := trie_insert vars (B "FILTER_TAG") t in v :: tag_vars v r
  end.
(* atom_tags_exec, 216-254. The outputs are those of atom_tags_outputlist, as many
   as there are tags. *)
Definition atom_tags_exec (c : ctx) (outputs : list (option fctx)) (w : W) : W * res nat :=
  match s_posts (c_st c), s_tags (c_st c) with
  | Some _, Some tags =>
      run_all (fun ov => build_atom c (snd ov) (fst ov)) (combine outputs (tag_vars (atom_vars c (B "atom_tags")) tags)) w
  | _, _ => (w, Ok 0)
  end.

(* ---- pagination, pagination_tags ---- *)
(* the page numbers of 279-288 and 374-377: the loop compares a size_t with a long,
   a negative number would be huge *)
Definition page_numbers (last_page : bytes) : res (list nat) :=
  let pages := fst (strtol last_page) in
  if Z.ltb pages 0 then OutOfFuel else Ok (seq 1 (Z.to_nat pages)).
(* pagination_outputlist, 259-298 *)
Definition pagination_outputs (c : ctx) (w : W) : W * res (list (option fctx)) :=
  match s_posts (c_st c) with
  | None => (w, Ok [])
  | Some _ =>
      if posts_pagination_enabled c (B "posts_per_page") then
        let (w, r) := ask_blogc c (Some (posts_pagination c trie_new (B "posts_per_page"))) None (B "LAST_PAGE") w in
        (w, do last_page <- r ;
            match last_page with
            | None => Ok []
            | Some l =>
                do ns <- page_numbers l ;
                Ok (map (fun n => out c w (generate_filename (dir c) (look c (B "blog_prefix")) (look c (B "pagination_prefix"))
                                             (Some (digits n)) (look c (B "html_ext")))) ns)
            end)
      else (w, Ok [])
  end.
(* the variables at each turn, 324 *)
Fixpoint numbered_vars (vars : trie bytes) (page : nat) (n : nat) : list (trie bytes) :=
  match n with
  | 0 => []
  | S n => let v := trie_insert vars (B "FILTER_PAGE") (digits page) in v :: numbered_vars v (page + 1) n
  end.
(* pagination_exec, 300-338 *)
Definition pagination_exec (c : ctx) (outputs : list (option fctx)) (w : W) : W * res nat :=
  match s_posts (c_st c) with
  | None => (w, Ok 0)
  | Some _ =>
      run_all (fun ov => build_listing c (snd ov) (fst ov))
        (combine outputs (numbered_vars (pagination_vars c (B "pagination")) 1 (length outputs))) w
  end.

(* the name of a page of a tag, 379-380 and 432-433 *)
Definition tag_page (c : ctx) (tag : bytes) (n : nat) : option bytes :=
  generate_filename2 (dir c) (look c (B "blog_prefix")) (look c (B "tag_prefix")) (Some tag) (look c (B "pagination_prefix"))
    (Some (digits n)) (look c (B "html_ext")).
(* the loop of pagination_tags_outputlist, 362-385 *)
Fixpoint tag_pages (c : ctx) (vars : trie bytes) (tags : list bytes) (w : W) : W * res (list (option fctx)) :=
  match tags with
  | [] => (w, Ok [])
  | t :: rest =>
      let (w1, r) := ask_blogc c (Some vars) (Some (trie_insert trie_new (B "FILTER_TAG") t)) (B "LAST_PAGE") w in
      match r with
      | Ok last_page =>
          match (match last_page with None => Ok [] | Some l => page_numbers l end) with
          | Ok ns =>
              let here := map (fun n => out c w1 (tag_page c t n)) ns in
              let (w2, r2) := tag_pages c vars rest w1 in
              (w2, do more <- r2 ; Ok (here ++ more))
          | UB => (w1, UB)
          | OutOfFuel => (w1, OutOfFuel)
          end
      | UB => (w1, UB)
      | OutOfFuel => (w1, OutOfFuel)
      end
  end.
(* pagination_tags_outputlist, 343-390 *)
Definition pagination_tags_outputs (c : ctx) (w : W) : W * res (list (option fctx)) :=
  match s_posts (c_st c), s_tags (c_st c) with
  | Some _, Some tags =>
      if posts_pagination_enabled c (B "posts_per_page") then
        tag_pages c (posts_pagination c trie_new (B "posts_per_page")) tags w
      else (w, Ok [])
  | _, _ => (w, Ok [])
  end.
(* the search for tag and page, 424-446; the names are never NULL *)
Definition find_page (c : ctx) (short : bytes) (tag : bytes) (count : nat) : option nat :=
  find (fun k => match tag_page c tag k with Some f => beq short f | None => false end) (seq 1 count).
Fixpoint find_tag (c : ctx) (short : bytes) (count : nat) (tags : list bytes) : option (bytes * nat) :=
  match tags with
  | [] => None
  | t :: r => match find_page c short t count with Some k => Some (t, k) | None => find_tag c short count r end
  end.
(* the variables at each turn, 417-451: None where the turn is left before 453 *)
Fixpoint tag_page_vars (c : ctx) (tags : list bytes) (count : nat) (vars : trie bytes) (outputs : list (option fctx))
  : list (option (trie bytes)) :=
  match outputs with
  | [] => []
  | None :: r => None :: tag_page_vars c tags count vars r
  | Some f :: r =>
      match find_tag c (f_short f) count tags with
      | None => None :: tag_page_vars c tags count vars r
      | Some (t, k) =>
          let v := trie_insert (trie_insert vars (B "FILTER_TAG") t) (B "FILTER_PAGE") (digits k) in
          Some v :: tag_page_vars c tags count v r
      end
  end.
(* pagination_tags_exec, 392-466 *)
Definition pagination_tags_exec (c : ctx) (outputs : list (option fctx)) (w : W) : W * res nat :=
  match s_posts (c_st c), s_tags (c_st c) with
  | Some _, Some tags =>
      run_all (fun ov w => match snd ov with Some v => build_listing c v (fst ov) w | None => (w, Ok 0) end)
        (combine outputs (tag_page_vars c tags (length outputs) (pagination_vars c (B "pagination_tags")) outputs)) w
  | _, _ => (w, Ok 0)
  end.

(* ---- posts, tags, pages ---- *)
(* posts_outputlist, 471-491 *)
Definition posts_outputs (c : ctx) (w : W) : list (option fctx) :=
  match s_posts (c_st c) with
  | None => []
  | Some posts =>
      map (fun p => out c w (generate_filename (dir c) (look c (B "blog_prefix")) (look c (B "post_prefix")) (Some p) (look c (B "html_ext")))) posts
  end.
(* one turn of 511-529 and 643-661; the source's slug is always set *)
Definition build_one (c : ctx) (vars : trie bytes) (so : list (option fctx) * option fctx) (w : W) : W * res nat :=
  match snd so with
  | None => (w, Ok 0)
  | Some f =>
      if need_rebuild (fst so) (Some (c_settings c)) None (Some (c_main c)) (snd so) true then
        match fst so with
        | Some s :: _ =>
            let local := match f_slug s with Some sl => trie_insert trie_new (B "MAKE_SLUG") sl | None => trie_new end in
            run_blogc c (Some vars) (Some local) false None (c_main c) f (fst so) true w
        | _ => (w, UB)
        end
      else (w, Ok 0)
  end.
(* the lists [s] of the turns: the source and what follows it *)
Fixpoint tails {A} (l : list A) : list (list A) := match l with [] => [] | _ :: r => l :: tails r end.
(* posts_exec, 493-534 *)
Definition posts_exec (c : ctx) (outputs : list (option fctx)) (w : W) : W * res nat :=
  match s_posts (c_st c) with
  | None => (w, Ok 0)
  | Some _ => run_all (build_one c (posts_vars c)) (combine (tails (c_posts c)) outputs) w
  end.
(* tags_outputlist, 539-562 *)
Definition tags_outputs (c : ctx) (w : W) : list (option fctx) :=
  match s_posts (c_st c), s_tags (c_st c) with
  | Some _, Some tags =>
      if posts_pagination_enabled c (B "posts_per_page") then
        map (fun t => out c w (generate_filename (dir c) (look c (B "blog_prefix")) (look c (B "tag_prefix")) (Some t) (look c (B "html_ext")))) tags
      else []
  | _, _ => []
  end.
(* tags_exec, 564-602; as many outputs as tags *)
Definition tags_exec (c : ctx) (outputs : list (option fctx)) (w : W) : W * res nat :=
  match s_posts (c_st c), s_tags (c_st c) with
  | Some _, Some tags =>
      run_all (fun ov => build_listing c (snd ov) (fst ov)) (combine outputs (tag_vars (list_vars c (B "tags")) tags)) w
  | _, _ => (w, Ok 0)
  end.
(* pages_outputlist, 607-625 *)
Definition pages_outputs (c : ctx) (w : W) : list (option fctx) :=
  match s_pages (c_st c) with
  | None => []
  | Some pages => map (fun p => out c w (generate_filename (dir c) None None (Some p) (look c (B "html_ext")))) pages
  end.
(* pages_exec, 627-666 *)
Definition pages_exec (c : ctx) (outputs : list (option fctx)) (w : W) : W * res nat :=
  match s_pages (c_st c) with
  | None => (w, Ok 0)
  | Some _ => run_all (build_one c (pages_vars c)) (combine (tails (c_pages c)) outputs) w
  end.

(* ---- copy ---- *)
(* copy_outputlist, 671-689 *)
Definition copy_outputs (c : ctx) (w : W) : list (option fctx) :=
  match s_copy (c_st c) with
  | None => []
  | Some _ => map (fun s => out c w (Some (c_short_output c ++ B "/" ++ f_short s))) (c_copy c)
  end.
(* one turn of 701-713 *)
Definition copy_one (c : ctx) (so : fctx * option fctx) (w : W) : W * res nat :=
  match snd so with
  | None => (w, Ok 0)
  | Some f =>
      if need_rebuild [Some (fst so)] (Some (c_settings c)) None None (snd so) true then
        let (w, rv) := cp w (fst so) f in (w, Ok rv)
      else (w, Ok 0)
  end.
(* copy_exec, 691-716 *)
Definition copy_exec (c : ctx) (outputs : list (option fctx)) (w : W) : W * res nat :=
  match s_copy (c_st c) with
  | None => (w, Ok 0)
  | Some _ => run_all (copy_one c) (combine (c_copy c) outputs) w
  end.

(* ---- the table, 783-871 ---- *)
Record rule : Type := Rule
  { r_name : bytes; r_outputs : ctx -> W -> W * res (list (option fctx)); r_exec : ctx -> list (option fctx) -> W -> W * res nat }.
Definition pure (f : ctx -> W -> list (option fctx)) (c : ctx) (w : W) : W * res (list (option fctx)) := (w, Ok (f c w)).
(* those with an outputlist_func *)
Definition build_rules : list rule :=
  [ Rule (B "index") (pure index_outputs) index_exec;
    Rule (B "atom") (pure atom_outputs) atom_exec;
    Rule (B "atom_tags") (pure atom_tags_outputs) atom_tags_exec;
    Rule (B "pagination") pagination_outputs pagination_exec;
    Rule (B "pagination_tags") pagination_tags_outputs pagination_tags_exec;
    Rule (B "posts") (pure posts_outputs) posts_exec;
    Rule (B "tags") (pure tags_outputs) tags_exec;
    Rule (B "pages") (pure pages_outputs) pages_exec;
    Rule (B "copy") (pure copy_outputs) copy_exec ].

(* bm_rule_execute, 974-990, for one of these *)
Definition rule_execute (c : ctx) (r : rule) (w : W) : W * res nat :=
  let (w, o) := r_outputs r c w in
  match o with
  | Ok o => r_exec r c o w
  | UB => (w, UB)
  | OutOfFuel => (w, OutOfFuel)
  end.
(* all_exec, 876-891 *)
Definition all_exec (c : ctx) (w : W) : W * res nat := run_all (rule_execute c) build_rules w.

(* bm_rule_list_built_files, 1043-1063 *)
Fixpoint built_files (c : ctx) (l : list rule) (w : W) : W * res (list (option fctx)) :=
  match l with
  | [] => (w, Ok [])
  | r :: rest =>
      let (w, o) := r_outputs r c w in
      match o with
      | Ok o => let (w, x) := built_files c rest w in (w, do x <- x ; Ok (o ++ x))
      | UB => (w, UB)
      | OutOfFuel => (w, OutOfFuel)
      end
  end.
(* one turn of 727-737 *)
Definition clean_one (c : ctx) (f : option fctx) (w : W) : W * res nat :=
  match f with
  | None => (w, Ok 0)
  | Some f => if f_readable f then let (w, rv) := rm w (e_output_dir (c_exec c)) f in (w, Ok rv) else (w, Ok 0)
  end.
(* clean_exec, 721-745, without the warning *)
Definition clean_exec (c : ctx) (w : W) : W * res nat :=
  let (w, l) := built_files c build_rules w in
  match l with
  | Ok l => run_all (clean_one c) l w
  | UB => (w, UB)
  | OutOfFuel => (w, OutOfFuel)
  end.

(* bm_rule_execute of any rule of the table by its name: None if there is none *)
Definition find_rule (name : bytes) : option (ctx -> option (trie bytes) -> W -> W * res nat) :=
  if beq name (B "all") then Some (fun c _ w => all_exec c w)
  else match find (fun r => beq (r_name r) name) build_rules with
       | Some r => Some (fun c _ w => rule_execute c r w)
       | None =>
           if beq name (B "clean") then Some (fun c _ w => clean_exec c w)
           else if beq name (B "runserver") || beq name (B "watch") || beq name (B "atom_dump") then
             Some (fun c a w => let (w, rv) := helper name c a w in (w, Ok rv))
           else None
       end.

(* ---- bm_rule_executor, 925-971 ---- *)
(* the name and the arguments of a rule string, 936-949 *)
Definition split_rule (s : bytes) : bytes * option (trie bytes) :=
  match cut ":"%char s with
  | None => (s, None)
  | Some (name, r) => (name, parse_rule_args (B ":" ++ r))
  end.
Fixpoint executor (c : ctx) (rules : list bytes) (rv : nat) (w : W) : W * res nat :=
  match rules with
  | [] => (w, Ok rv)
  | s :: rest =>
      let (name, args) := split_rule s in
      match find_rule name with
      | Some r =>
          let (w, x) := r c args w in
          match x with
          | Ok 0 => executor c rest 0 w
          | _ => (w, x)
          end
      | None => executor c rest 1 w
      end
  end.
End Rules.
