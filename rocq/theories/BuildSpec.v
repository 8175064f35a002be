(* What blogc-make is to build for a site, and when it is up to date. Of rules.c's
   model it uses only the types of files and of the context. *)
From Verif Require Import Base Trie TrieProofs Settings Filename Source Rules RulesSpec.
From Verif Require Content.
From Coq Require Import ZArith.
#[local] Open Scope nat_scope.

Definition somes {A} (l : list (option A)) : list A := flat_map (fun x => match x with Some x => [x] | None => [] end) l.

(* where a file of the output is *)
Definition absolute (c : ctx) (n : bytes) : bytes :=
  match n with x :: _ => if x == "/"%char then n else c_root c ++ "/"%char :: n | [] => c_root c ++ B "/" end.

(* a setting with a number of posts that is not 0 *)
Definition shown (c : ctx) (k : bytes) : Prop := fst (strtol (look_str c k)) <> 0%Z.
(* the pages of the listing of all posts, or of a tag, go from 1 to what blogc says is
   the last one *)
Definition page_of (answer : option bytes -> option bytes) (tag : option bytes) (k : nat) : Prop :=
  exists s, answer tag = Some s /\ (1 <= Z.of_nat k <= fst (strtol s))%Z.

(* the files a listing depends on, and a feed *)
Definition listing_deps (c : ctx) : list fctx :=
  [c_settings c; c_main c] ++ somes [c_entry c] ++ somes (c_posts c).
Definition feed_deps (c : ctx) : list fctx :=
  [c_settings c] ++ (if c_atom_tmp c then [] else [c_atom c]) ++ somes (c_posts c).

(* the files of each rule, and the files each depends on *)
Inductive product (c : ctx) (answer : option bytes -> option bytes) : bytes -> bytes -> list fctx -> Prop :=
| P_index n : s_posts (c_st c) <> None -> shown c (B "posts_per_page") ->
    generate_filename (Some (c_short_output c)) (look c (B "blog_prefix")) (look c (B "index_prefix")) None (look c (B "html_ext")) = Some n ->
    product c answer (B "index") n (listing_deps c)
| P_atom n : s_posts (c_st c) <> None -> shown c (B "atom_posts_per_page") ->
    generate_filename (Some (c_short_output c)) (look c (B "blog_prefix")) (look c (B "atom_prefix")) None (look c (B "atom_ext")) = Some n ->
    product c answer (B "atom") n (feed_deps c)
| P_atom_tag tags t n : s_posts (c_st c) <> None -> s_tags (c_st c) = Some tags -> In t tags -> shown c (B "atom_posts_per_page") ->
    generate_filename (Some (c_short_output c)) (look c (B "blog_prefix")) (look c (B "atom_prefix")) (Some t) (look c (B "atom_ext")) = Some n ->
    product c answer (B "atom_tags") n (feed_deps c)
| P_pagination k n : s_posts (c_st c) <> None -> shown c (B "posts_per_page") -> page_of answer None k ->
    generate_filename (Some (c_short_output c)) (look c (B "blog_prefix")) (look c (B "pagination_prefix")) (Some (Content.dec (N.of_nat k)))
      (look c (B "html_ext")) = Some n ->
    product c answer (B "pagination") n (listing_deps c)
| P_pagination_tag tags t k n : s_posts (c_st c) <> None -> s_tags (c_st c) = Some tags -> In t tags -> shown c (B "posts_per_page") ->
    page_of answer (Some t) k ->
    generate_filename2 (Some (c_short_output c)) (look c (B "blog_prefix")) (look c (B "tag_prefix")) (Some t) (look c (B "pagination_prefix"))
      (Some (Content.dec (N.of_nat k))) (look c (B "html_ext")) = Some n ->
    product c answer (B "pagination_tags") n (listing_deps c)
| P_post posts i p f n : s_posts (c_st c) = Some posts -> nth_error posts i = Some p -> nth_error (c_posts c) i = Some (Some f) ->
    generate_filename (Some (c_short_output c)) (look c (B "blog_prefix")) (look c (B "post_prefix")) (Some p) (look c (B "html_ext")) = Some n ->
    product c answer (B "posts") n [c_settings c; c_main c; f]
| P_tag tags t n : s_posts (c_st c) <> None -> s_tags (c_st c) = Some tags -> In t tags -> shown c (B "posts_per_page") ->
    generate_filename (Some (c_short_output c)) (look c (B "blog_prefix")) (look c (B "tag_prefix")) (Some t) (look c (B "html_ext")) = Some n ->
    product c answer (B "tags") n (listing_deps c)
| P_page pages i p f n : s_pages (c_st c) = Some pages -> nth_error pages i = Some p -> nth_error (c_pages c) i = Some (Some f) ->
    generate_filename (Some (c_short_output c)) None None (Some p) (look c (B "html_ext")) = Some n ->
    product c answer (B "pages") n [c_settings c; c_main c; f]
| P_copy f : s_copy (c_st c) <> None -> In f (c_copy c) ->
    product c answer (B "copy") (c_short_output c ++ B "/" ++ f_short f) [c_settings c; f].

(* the files that what is built may depend on *)
Definition inputs (c : ctx) : list fctx :=
  [c_settings c; c_main c; c_atom c] ++ somes [c_entry c] ++ somes (c_posts c) ++ somes (c_pages c) ++ c_copy c.
(* they are all there; a post or page has a file context *)
Definition site_ok (c : ctx) : Prop :=
  Forall (fun f => f_readable f = true) (inputs c) /\ ~ In None (c_posts c) /\ ~ In None (c_pages c)
  /\ (forall l, s_posts (c_st c) = Some l -> length l = length (c_posts c))
  /\ (forall l, s_pages (c_st c) = Some l -> length l = length (c_pages c)).

Section World.
Variable W : Type.
Variable stat : W -> bytes -> option (Z * Z).
(* the file is there, and none of those it depends on was changed later *)
Definition up_to_date (w : W) (path : bytes) (deps : list fctx) : Prop :=
  exists t, stat w path = Some t /\ forall f, In f deps -> not_later (f_time f) t.
(* no file disappears or gets an older time *)
Definition later (w w' : W) : Prop :=
  forall p t, stat w p = Some t -> exists t', stat w' p = Some t' /\ not_later t t'.
(* a file just written, later than all inputs *)
Definition written (c : ctx) (w : W) (path : bytes) : Prop := up_to_date w path (inputs c).
End World.

(* ---- how each file is to be made: by blogc with these variables, or by copying ---- *)
Inductive jrun : Type :=
| JBlogc (gv lv : option (trie bytes)) (listing : bool) (entry : option fctx) (template : fctx) (sources : list (option fctx)) (only_first : bool)
| JCopy (source : fctx).

Fixpoint assoc (n : bytes) (l : list (bytes * bytes)) : option bytes :=
  match l with [] => None | (k, v) :: r => if beq k n then Some v else assoc n r end.
(* a trie as the functions of trie.c build them, with these values *)
Definition means (t : trie bytes) (l : list (bytes * bytes)) : Prop := wf t /\ forall n, no_nul n -> trie_lookup t n = assoc n l.

(* the first page, unless the number of posts is negative *)
Definition first_page (c : ctx) (k : bytes) : list (bytes * bytes) :=
  if Z.leb 0 (fst (strtol (look_str c k))) then [(B "FILTER_PAGE", B "1"); (B "FILTER_PER_PAGE", look_str c k)] else [].
(* the order of posts, of a setting *)
Definition order_vars (c : ctx) (k : bytes) (l : list (bytes * bytes)) : Prop :=
  exists sort ascending, (sort = true <-> on (look c (B "posts_sort"))) /\ (ascending = true <-> asc (look c k)) /\
    l = (if sort then [(B "FILTER_SORT", B "1")] else []) ++ (if Bool.eqb sort ascending then [(B "FILTER_REVERSE", B "1")] else []).
Definition kind (rule type date_format : bytes) : list (bytes * bytes) :=
  [(B "MAKE_RULE", rule); (B "MAKE_TYPE", type); (B "DATE_FORMAT", date_format)].
Definition html_kind (c : ctx) (rule type : bytes) : list (bytes * bytes) := kind rule type (look_str c (B "date_format")).
Definition feed_kind (rule : bytes) : list (bytes * bytes) := kind rule (B "atom") (B "%Y-%m-%dT%H:%M:%SZ").
Definition slug_of (f : fctx) : list (bytes * bytes) := match f_slug f with Some s => [(B "MAKE_SLUG", s)] | None => [] end.
Definition numbered (c : ctx) (k : nat) : list (bytes * bytes) :=
  [(B "FILTER_PAGE", Content.dec (N.of_nat k)); (B "FILTER_PER_PAGE", look_str c (B "posts_per_page"))].

Inductive recipe (c : ctx) : bytes -> bytes -> jrun -> Prop :=
| R_index n o v :
    generate_filename (Some (c_short_output c)) (look c (B "blog_prefix")) (look c (B "index_prefix")) None (look c (B "html_ext")) = Some n ->
    order_vars c (B "html_order") o -> means v (first_page c (B "posts_per_page") ++ o ++ html_kind c (B "index") (B "post")) ->
    recipe c (B "index") n (JBlogc (Some v) None true (c_entry c) (c_main c) (c_posts c) false)
| R_atom n o v :
    generate_filename (Some (c_short_output c)) (look c (B "blog_prefix")) (look c (B "atom_prefix")) None (look c (B "atom_ext")) = Some n ->
    order_vars c (B "atom_order") o -> means v (first_page c (B "atom_posts_per_page") ++ o ++ feed_kind (B "atom")) ->
    recipe c (B "atom") n (JBlogc (Some v) None true None (c_atom c) (c_posts c) false)
| R_atom_tag tags t n o v : s_tags (c_st c) = Some tags -> In t tags ->
    generate_filename (Some (c_short_output c)) (look c (B "blog_prefix")) (look c (B "atom_prefix")) (Some t) (look c (B "atom_ext")) = Some n ->
    order_vars c (B "atom_order") o -> means v (first_page c (B "atom_posts_per_page") ++ o ++ feed_kind (B "atom_tags") ++ [(B "FILTER_TAG", t)]) ->
    recipe c (B "atom_tags") n (JBlogc (Some v) None true None (c_atom c) (c_posts c) false)
| R_pagination k n o v :
    generate_filename (Some (c_short_output c)) (look c (B "blog_prefix")) (look c (B "pagination_prefix")) (Some (Content.dec (N.of_nat k)))
      (look c (B "html_ext")) = Some n ->
    order_vars c (B "html_order") o -> means v (numbered c k ++ o ++ html_kind c (B "pagination") (B "post")) ->
    recipe c (B "pagination") n (JBlogc (Some v) None true (c_entry c) (c_main c) (c_posts c) false)
| R_pagination_tag tags t k n o v : s_tags (c_st c) = Some tags -> In t tags ->
    generate_filename2 (Some (c_short_output c)) (look c (B "blog_prefix")) (look c (B "tag_prefix")) (Some t) (look c (B "pagination_prefix"))
      (Some (Content.dec (N.of_nat k))) (look c (B "html_ext")) = Some n ->
    order_vars c (B "html_order") o -> means v (numbered c k ++ o ++ html_kind c (B "pagination_tags") (B "post") ++ [(B "FILTER_TAG", t)]) ->
    recipe c (B "pagination_tags") n (JBlogc (Some v) None true (c_entry c) (c_main c) (c_posts c) false)
| R_post posts i p f n o v lv : s_posts (c_st c) = Some posts -> nth_error posts i = Some p -> nth_error (c_posts c) i = Some (Some f) ->
    generate_filename (Some (c_short_output c)) (look c (B "blog_prefix")) (look c (B "post_prefix")) (Some p) (look c (B "html_ext")) = Some n ->
    order_vars c (B "html_order") o -> means v ((B "IS_POST", B "1") :: o ++ html_kind c (B "posts") (B "post")) -> means lv (slug_of f) ->
    recipe c (B "posts") n (JBlogc (Some v) (Some lv) false None (c_main c) (skipn i (c_posts c)) true)
| R_tag tags t n o v : s_tags (c_st c) = Some tags -> In t tags ->
    generate_filename (Some (c_short_output c)) (look c (B "blog_prefix")) (look c (B "tag_prefix")) (Some t) (look c (B "html_ext")) = Some n ->
    order_vars c (B "html_order") o -> means v (first_page c (B "posts_per_page") ++ o ++ html_kind c (B "tags") (B "post") ++ [(B "FILTER_TAG", t)]) ->
    recipe c (B "tags") n (JBlogc (Some v) None true (c_entry c) (c_main c) (c_posts c) false)
| R_page pages i p f n v lv : s_pages (c_st c) = Some pages -> nth_error pages i = Some p -> nth_error (c_pages c) i = Some (Some f) ->
    generate_filename (Some (c_short_output c)) None None (Some p) (look c (B "html_ext")) = Some n ->
    means v (html_kind c (B "pages") (B "page")) -> means lv (slug_of f) ->
    recipe c (B "pages") n (JBlogc (Some v) (Some lv) false None (c_main c) (skipn i (c_pages c)) true)
| R_copy f : In f (c_copy c) -> recipe c (B "copy") (c_short_output c ++ B "/" ++ f_short f) (JCopy f).
