(* Which pages the listings of a site have. Of the models it uses the types, what a listing
   is (LoaderSpec) and what a run of blogc is (SiteSpec). *)
From Verif Require Import Base Trie Datetime Loader LoaderSpec BlockSpec ShSpec Settings Filename FilenameSpec Template Source Renderer RenderSpec BlogcCmd Rules BuildSpec Main SiteSpec P_MainRun.
From Verif Require P_Loader Content.
From Coq Require Import ZArith.
#[local] Open Scope nat_scope.

(* what appears on stdout *)
Definition printed (l : list effect) : option bytes :=
  match flat_map (fun e => match e with EPrint t => t | _ => [] end) l with [] => None | t => Some t end.

(* the last page of the posts [ps], [n] on a page: of all of them or of those with a tag;
   there is none if there are no posts *)
Definition last_page_is (ps : list (trie bytes)) (n : nat) (tag : option bytes) (s : option bytes) : Prop :=
  exists listed, picked (kept_by tag) ps listed /\
  match s with
  | Some d => listed <> [] /\ numeral (Z.of_nat (length (pages n listed))) d
  | None => listed = []
  end.

Section Spec.
Variable W : Type.
Variable file : W -> bytes -> option bytes.
Variable text : bytes -> option bytes.
Variable mktime : tm -> tm.
Variable strftime : option bytes -> bytes -> tm -> option bytes.
Variable funcs : W -> list (bytes * (vars -> vars)).
Variable sfuel rfuel : nat.
Variable mkdir fopen : W -> bytes -> bool.
Variable version : bytes.
Variable now : W -> Prop.

(* running the program [bin] to be told something: it does what main.c does, and all it
   prints arrives *)
Definition tells_blogc (bin : bytes) (command : W -> bytes -> bytes -> W * cmd_result) : Prop :=
  forall w cmd input locale args l n, now w -> sh_words cmd = Some (words_of locale ++ bin :: args) ->
  blogc_main (contents file text w) mktime (strftime locale) (funcs w) sfuel rfuel (mkdir w) (fopen w) (fun _ t => t) version args input = Ok (l, n) ->
  (forall e, In e l -> touched e = None) ->
  exists err, command w cmd input = (w, CmdDone n (printed l) err).

(* the posts of the site are [ps] *)
Record posts_are (c : ctx) (w : W) (ps : list (trie bytes)) : Prop := PostsAre
  { pa_files : P_Loader.posts (contents file text w) sfuel (s_global (c_st c)) (map f_path (somes (c_posts c))) ps;
    pa_uniform : uniform ps;
    pa_number : (Z.of_nat (length ps) < 2 ^ 24)%Z }.
(* the configuration leaves the listings to blogc-make *)
Record usual (c : ctx) : Prop := Usual
  { us_tag : trie_lookup (s_global (c_st c)) (B "FILTER_TAG") = None;
    us_pages : forall v, In v page_vars -> trie_lookup (s_global (c_st c)) v = None;
    us_sort : ~ enabled (s_global (c_st c)) (B "FILTER_SORT");
    us_reverse : ~ enabled (s_global (c_st c)) (B "FILTER_REVERSE");
    us_tags : forall tags t, s_tags (c_st c) = Some tags -> In t tags -> t <> [] /\ ~ slash t }.

(* blogc cannot make a listing of the posts: one is missing or is no source, or only some of
   them have a date *)
Definition broken (c : ctx) (w : W) : Prop :=
  (exists l1 f l2 ps e, map f_path (somes (c_posts c)) = l1 ++ f :: l2 /\ P_Loader.posts (contents file text w) sfuel (s_global (c_st c)) l1 ps /\
     source_parse_from_file (contents file text w) sfuel (s_global (c_st c)) f = Ok (Failed e))
  \/ exists ps, P_Loader.posts (contents file text w) sfuel (s_global (c_st c)) (map f_path (somes (c_posts c))) ps /\ ~ uniform ps.
(* [answer] is the last page of each listing; none while the posts are broken *)
Definition counted (c : ctx) (answer : option bytes -> option bytes) (w : W) : Prop :=
  usual c /\ exists n, long_int (look_str c (B "posts_per_page")) (Z.of_nat n) /\ 0 < n /\
  ((exists ps, posts_are c w ps /\ forall tag, last_page_is ps n tag (answer tag)) \/ (broken c w /\ forall tag, answer tag = None)).

(* the file [n] is to be page [k] of the listing of all posts, or of those with a tag *)
Inductive listing_of (c : ctx) : bytes -> option bytes -> nat -> bytes -> Prop :=
| L_index n :
    generate_filename (Some (c_short_output c)) (look c (B "blog_prefix")) (look c (B "index_prefix")) None (look c (B "html_ext")) = Some n ->
    listing_of c (B "index") None 1 n
| L_page k n :
    generate_filename (Some (c_short_output c)) (look c (B "blog_prefix")) (look c (B "pagination_prefix")) (Some (Content.dec (N.of_nat k))) (look c (B "html_ext")) = Some n ->
    listing_of c (B "pagination") None k n
| L_tag tags t n : s_tags (c_st c) = Some tags -> In t tags ->
    generate_filename (Some (c_short_output c)) (look c (B "blog_prefix")) (look c (B "tag_prefix")) (Some t) (look c (B "html_ext")) = Some n ->
    listing_of c (B "tags") (Some t) 1 n
| L_tag_page tags t k n : s_tags (c_st c) = Some tags -> In t tags ->
    generate_filename2 (Some (c_short_output c)) (look c (B "blog_prefix")) (look c (B "tag_prefix")) (Some t) (look c (B "pagination_prefix"))
      (Some (Content.dec (N.of_nat k))) (look c (B "html_ext")) = Some n ->
    listing_of c (B "pagination_tags") (Some t) k n.
(* no other file of the site has the same name *)
Definition alone (c : ctx) (answer : option bytes -> option bytes) (rule n : bytes) : Prop :=
  forall rule' n' d', product c answer rule' n' d' -> absolute c n' = absolute c n -> rule' = rule /\ n' = n.

(* a variable is the number, or unset *)
Definition says (config : trie bytes) (v : bytes) (z : option nat) : Prop :=
  match z with
  | Some z => exists d, numeral (Z.of_nat z) d /\ trie_lookup config v = Some d
  | None => trie_lookup config v = None
  end.
(* page [k] of [last] knows its neighbours *)
Record numbers (config : trie bytes) (k last : nat) : Prop := Numbers
  { nu_current : says config (B "CURRENT_PAGE") (Some k);
    nu_previous : says config (B "PREVIOUS_PAGE") (if Nat.ltb 1 k then Some (k - 1) else None);
    nu_next : says config (B "NEXT_PAGE") (if Nat.ltb k last then Some (k + 1) else None);
    nu_first : says config (B "FIRST_PAGE") (if Nat.leb k last then Some 1 else None);
    nu_last : says config (B "LAST_PAGE") (if Nat.ltb 0 last then Some last else None) }.
(* the file [path] is the main template rendered for page [k] of these pages, when the
   template is properly nested (C23) *)
Definition shows_page (c : ctx) (w : W) (path : bytes) (k : nat) (all : list (list (trie bytes))) : Prop :=
  exists config entries src ast page moment,
    numbers config k (length all) /\
    Forall2 (entry_of (contents file text w) sfuel config) (map f_path (somes [c_entry c])) entries /\
    contents file text w (f_path (c_main c)) = Some src /\ template_parse src = Ok (Datatypes.inl ast) /\ file w path = Some page /\
    forall prog, ast = flatten prog -> fits false false prog -> ast <> [] ->
      page = fst (output (convert mktime (strftime (look c (B "locale")))) (funcvars_eval (funcs moment)) (nth (k - 1) all []) true true prog entries config).
End Spec.
