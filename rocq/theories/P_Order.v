(* C56: the order of listings built by blogc-make. *)
From Verif Require Import Base Utils Trie TrieProofs Datetime Source Loader LoaderSpec LoaderProofs P_Loader Settings BlogcCmd Main MainSpec Rules RulesSpec.
From Coq Require Import ZArith Permutation Sorting.Sorted.
#[local] Open Scope nat_scope.
#[local] Arguments B : simpl never.

(* the variables of the rules that list posts, at any turn of their loops, with the
   setting that orders them *)
Inductive rule_vars (c : ctx) : bytes -> trie bytes -> Prop :=
| RV_list rule : rule_vars c (B "html_order") (list_vars c rule)
| RV_atom rule : rule_vars c (B "atom_order") (atom_vars c rule)
| RV_pages rule : rule_vars c (B "html_order") (pagination_vars c rule)
| RV_tag o v t : rule_vars c o v -> rule_vars c o (trie_insert v (B "FILTER_TAG") t)
| RV_page o v p : rule_vars c o v -> rule_vars c o (trie_insert v (B "FILTER_PAGE") p).

Lemma on_spec v : str_to_bool v = true <-> on v.
Proof.
  destruct v as [v|].
  - pose proof (enabled_spec (trie_insert trie_new (B "A") v) (B "A")) as H. unfold enabled in H.
    rewrite trie_lookup_insert in H by (apply nn; reflexivity). rewrite beq_refl in H. exact H.
  - split; [discriminate|]. intros (x & E & _). discriminate.
Qed.
Lemma asc_spec c k : strcaseeq (look_str c k) (B "asc") = true <-> asc (look c k).
Proof.
  assert (L : forall d D, forallb (fun c => Bool.eqb (to_lower c == d) (upper_of c == D)) all_bytes = true -> forall c, (to_lower c == d) = (upper_of c == D)).
  { intros d D H x. apply Bool.eqb_prop. exact (@forall_bytes _ H x). }
  unfold strcaseeq, look_str, asc. destruct (look c k) as [v|].
  - change (map to_lower (B "asc")) with (B "asc").
    rewrite (@word_case to_lower (B "asc") (B "ASC")); [|repeat (apply Forall2_cons; [apply L; vm_compute; reflexivity|]); apply Forall2_nil].
    split; [intro H; exists v; split; [reflexivity|apply beq_eq; exact H]|]. intros (x & E & H). injection E as <-. rewrite H. apply beq_refl.
  - split; [discriminate|]. intros (x & E & _). discriminate.
Qed.

Ltac ins := repeat (rewrite trie_lookup_insert by (apply nn; reflexivity)); cbn [beq].
(* keys other than the one inserted *)
Lemma ins_other (v : trie bytes) k x n : no_nulb k = true -> no_nulb n = true -> beq k n = false -> trie_lookup (trie_insert v k x) n = trie_lookup v n.
Proof. intros Hk Hn E. rewrite trie_lookup_insert by (apply nn; assumption). rewrite E. reflexivity. Qed.

Definition orders (sort a : bool) (gv : trie bytes) : Prop :=
  trie_lookup gv (B "FILTER_SORT") = (if sort then Some (B "1") else None)
  /\ trie_lookup gv (B "FILTER_REVERSE") = (if Bool.eqb sort a then Some (B "1") else None).
Lemma ordering_orders c v o : trie_lookup v (B "FILTER_SORT") = None -> trie_lookup v (B "FILTER_REVERSE") = None ->
  orders (str_to_bool (look c (B "posts_sort"))) (strcaseeq (look_str c o) (B "asc")) (posts_ordering c v o).
Proof.
  intros H1 H2. unfold posts_ordering, orders.
  set (s := str_to_bool _). set (a := strcaseeq _ _). destruct s, a; cbn [andb orb negb Bool.eqb];
    rewrite ?trie_lookup_insert by (apply nn; reflexivity); rewrite ?H1, ?H2; split; reflexivity.
Qed.
Lemma orders_ins s a gv k x : no_nulb k = true -> beq k (B "FILTER_SORT") = false -> beq k (B "FILTER_REVERSE") = false ->
  orders s a gv -> orders s a (trie_insert gv k x).
Proof. intros Hk H1 H2 [A1 A2]. split; rewrite ins_other by (assumption || reflexivity); assumption. Qed.
Lemma pagination_none c k n : no_nulb n = true -> beq (B "FILTER_PAGE") n = false -> beq (B "FILTER_PER_PAGE") n = false ->
  trie_lookup (posts_pagination c trie_new k) n = None.
Proof.
  intros Hn H1 H2. unfold posts_pagination. destruct (Z.leb 0 _); [|apply trie_lookup_new].
  rewrite !ins_other by (assumption || reflexivity). apply trie_lookup_new.
Qed.
Lemma rule_orders c o v : rule_vars c o v ->
  orders (str_to_bool (look c (B "posts_sort"))) (strcaseeq (look_str c o) (B "asc")) v.
Proof.
  induction 1 as [rule|rule|rule|o v t _ IH|o v p _ IH].
  - unfold list_vars. repeat (apply orders_ins; [reflexivity|reflexivity|reflexivity|]). apply ordering_orders; apply pagination_none; reflexivity.
  - unfold atom_vars. repeat (apply orders_ins; [reflexivity|reflexivity|reflexivity|]). apply ordering_orders; apply pagination_none; reflexivity.
  - unfold pagination_vars. repeat (apply orders_ins; [reflexivity|reflexivity|reflexivity|]).
    apply ordering_orders; rewrite ins_other by reflexivity; apply trie_lookup_new.
  - apply orders_ins; [reflexivity|reflexivity|reflexivity|exact IH].
  - apply orders_ins; [reflexivity|reflexivity|reflexivity|exact IH].
Qed.

(* the configuration blogc gets (C65) when neither the blogcfile's [global] section nor
   variables of the file set the options themselves *)
Definition configured (conf : trie bytes) (dev : bool) (gv : trie bytes) (global : trie bytes) (tags : option (list bytes)) (version : bytes) : Prop :=
  (forall n, no_nul n -> trie_lookup conf n = effective dev None (Some gv) global tags version n)
  /\ trie_lookup global (B "FILTER_SORT") = None /\ trie_lookup global (B "FILTER_REVERSE") = None.
Lemma configured_filter conf dev gv global tags version n : configured conf dev gv global tags version ->
  In n [B "FILTER_SORT"; B "FILTER_REVERSE"] -> trie_lookup conf n = trie_lookup gv n.
Proof.
  intros (H & G1 & G2) Hn.
  assert (P : no_nul n /\ trie_lookup global n = None /\ beq (B "MAKE_ENV") n = false /\ beq (B "MAKE_ENV_DEV") n = false
              /\ beq (B "MAKE_TAGS") n = false /\ beq (B "BLOGC_VERSION") n = false).
  { destruct Hn as [<-|[<-|[]]]; (split; [apply nn; reflexivity|]; split; [assumption|]); repeat split; reflexivity. }
  destruct P as (N & G & E1 & E2 & E3 & E4). rewrite H by exact N. unfold effective, only. rewrite E1, E2, E3, E4, G. cbn [in_trie].
  destruct dev, tags, (trie_lookup gv n); reflexivity.
Qed.

Section Order.
Variable contents : bytes -> option bytes.
Variable mktime : tm -> tm.
Variable strftime : bytes -> tm -> option bytes.
Variable fuel : nat.
Variable seconds : tm -> Z.
Notation parse_files := (source_parse_from_files contents mktime strftime fuel).

Lemma arranged_ordered sort a ps qs : arranged seconds sort (Bool.eqb sort a) ps qs -> ordered seconds sort a ps qs.
Proof.
  unfold arranged, ordered. destruct sort.
  - intros (ss & H1 & H2 & H3 & H4). exists ss. split; [exact H1|]. split; [exact H4|]. split; [exact H3|].
    replace (Bool.eqb true a) with a in H2 by (destruct a; reflexivity). exact H2.
  - destruct a; intro H; exact H.
Qed.
Lemma one_enabled conf k (b : bool) : trie_lookup conf k = (if b then Some (B "1") else None) -> (b = true <-> enabled conf k).
Proof.
  intro E. rewrite <- enabled_spec, E. destruct b; [|split; discriminate]. split; intros _; reflexivity.
Qed.

(* Without pages: the posts with the tag asked for, in the order of the settings. *)
Theorem C56_listing_partial : forall c o gv conf dev global tags version l ps sort ascending,
  rule_vars c o gv -> configured conf dev gv global tags version ->
  (sort = true <-> on (look c (B "posts_sort"))) -> (ascending = true <-> asc (look c o)) ->
  clock mktime strftime seconds -> posts contents fuel conf l ps -> uniform ps ->
  (sort = true -> Forall (fun p => exists z, dated seconds p z) ps /\ within_68_years seconds ps) ->
  trie_lookup conf (B "FILTER_PAGE") = None ->
  exists qs rv conf', parse_files conf l = Ok (Loaded (rv, conf')) /\
    ordered seconds sort ascending ps qs /\ picked (kept_by (trie_lookup conf (B "FILTER_TAG"))) qs rv.
Proof.
  intros c o gv conf dev global tags version l ps sort ascending Hv Hc Hs Ha Hk Hp Hu Hd Hpg.
  destruct (rule_orders Hv) as [O1 O2].
  assert (Es : str_to_bool (look c (B "posts_sort")) = sort).
  { apply Bool.eq_true_iff_eq. rewrite on_spec. symmetry. exact Hs. }
  assert (Ea : strcaseeq (look_str c o) (B "asc") = ascending).
  { apply Bool.eq_true_iff_eq. rewrite asc_spec. symmetry. exact Ha. }
  rewrite Es in O1, O2. rewrite Ea in O2.
  rewrite <- (configured_filter Hc) in O1 by (left; reflexivity). rewrite <- (configured_filter Hc) in O2 by (right; left; reflexivity).
  destruct (@C35_listing contents mktime strftime fuel seconds conf l ps sort (Bool.eqb sort ascending) Hk Hp (one_enabled O1)
              (one_enabled O2) Hu Hd Hpg) as (qs & rv & conf' & E & A & P & _).
  exists qs, rv, conf'. split; [exact E|]. split; [apply arranged_ordered; exact A|exact P].
Qed.

(* With pages: the page asked for of that listing. *)
Theorem C56_page_partial : forall c o gv conf dev global tags version l ps sort ascending s page n,
  rule_vars c o gv -> configured conf dev gv global tags version ->
  (sort = true <-> on (look c (B "posts_sort"))) -> (ascending = true <-> asc (look c o)) ->
  clock mktime strftime seconds -> posts contents fuel conf l ps -> uniform ps ->
  (sort = true -> Forall (fun p => exists z, dated seconds p z) ps /\ within_68_years seconds ps) ->
  trie_lookup conf (B "FILTER_PAGE") = Some s -> long_int s page -> (1 <= page)%Z ->
  per_page_of conf n -> (1 <= n < 2 ^ 63)%Z -> ((page - 1) * n < 2 ^ 63)%Z -> (Z.of_nat (length ps) < 2 ^ 24)%Z ->
  exists qs listed conf', ordered seconds sort ascending ps qs /\ picked (kept_by (trie_lookup conf (B "FILTER_TAG"))) qs listed /\
    parse_files conf l = Ok (Loaded (nth (Z.to_nat (page - 1)) (pages (Z.to_nat n) listed) [], conf')).
Proof.
  intros c o gv conf dev global tags version l ps sort ascending s page n Hv Hc Hs Ha Hk Hp Hu Hd Hpg Hl H1 Hn Hn' Hov Hsz.
  destruct (rule_orders Hv) as [O1 O2].
  assert (Es : str_to_bool (look c (B "posts_sort")) = sort).
  { apply Bool.eq_true_iff_eq. rewrite on_spec. symmetry. exact Hs. }
  assert (Ea : strcaseeq (look_str c o) (B "asc") = ascending).
  { apply Bool.eq_true_iff_eq. rewrite asc_spec. symmetry. exact Ha. }
  rewrite Es in O1, O2. rewrite Ea in O2.
  rewrite <- (configured_filter Hc) in O1 by (left; reflexivity). rewrite <- (configured_filter Hc) in O2 by (right; left; reflexivity).
  destruct (@C34_page contents mktime strftime fuel seconds conf l ps sort (Bool.eqb sort ascending) s page n Hk Hp (one_enabled O1)
              (one_enabled O2) Hu Hd Hpg Hl H1 Hn Hn' Hov Hsz) as (qs & listed & conf' & E & A & P & _).
  exists qs, listed, conf'. split; [apply arranged_ordered; exact A|]. split; [exact P|exact E].
Qed.
End Order.
Print Assumptions C56_listing_partial.
Print Assumptions C56_page_partial.

(* three dated posts, sorted, ascending; [ex_conf] is what blogc is given *)
Definition ex_settings : settings :=
  Settings trie_new (trie_insert (trie_insert (trie_insert trie_new (B "posts_sort") (B "yes")) (B "html_order") (B "Asc")) (B "posts_per_page") (B "-1"))
    None None None None.
Definition ex_nofile : fctx := Fctx [] [] None (0, 0)%Z true.
Definition ex_order (s : settings) : ctx := Ctx (Ectx (B "blogc") (B "blogc-runserver") s (B "/r/_build") false) (B "/r") (B "_build")
  ex_nofile ex_nofile false ex_nofile None [] [] [].
Definition ex_conf : trie bytes := trie_insert (list_vars (ex_order ex_settings) (B "index")) (B "BLOGC_VERSION") (B "0.20").
Example C56_example : configured ex_conf false (list_vars (ex_order ex_settings) (B "index")) trie_new None (B "0.20")
  /\ on (look (ex_order ex_settings) (B "posts_sort")) /\ asc (look (ex_order ex_settings) (B "html_order"))
  /\ trie_lookup ex_conf (B "FILTER_PAGE") = None
  /\ names (source_parse_from_files files (fun t => t) a_strftime 9 ex_conf [B "a.txt"; B "b.txt"; B "new.txt"])
     = [Some (B "new"); Some (B "a"); Some (B "b")].
Proof.
  split; [|split; [|split; [|split; vm_compute; reflexivity]]].
  - split; [|split; apply trie_lookup_new]. intros n Hn. unfold ex_conf, effective, only, in_trie.
    rewrite trie_lookup_insert by (exact Hn || (apply nn; reflexivity)). rewrite trie_lookup_new.
    destruct (beq (B "BLOGC_VERSION") n) eqn:E.
    + apply beq_eq in E. subst n. vm_compute. reflexivity.
    + destruct (trie_lookup (list_vars _ _) n); reflexivity.
  - apply on_spec. vm_compute. reflexivity.
  - apply asc_spec. vm_compute. reflexivity.
Qed.

(* Finding: [global] in the blogcfile can set FILTER_SORT, and then the posts are sorted
   though posts_sort is off. *)
Theorem C56_global_refuted : exists c conf global l,
  ~ on (look c (B "posts_sort")) /\ asc (look c (B "html_order"))
  /\ (forall n, no_nul n -> trie_lookup conf n = effective false None (Some (list_vars c (B "index"))) global None (B "0.20") n)
  /\ names (source_parse_from_files files (fun t => t) a_strftime 9 conf l) <> map (fun f => get_filename (Some f)) l.
Proof.
  pose (s := Settings trie_new (trie_insert (trie_insert trie_new (B "html_order") (B "ASC")) (B "posts_per_page") (B "-1")) None None None None).
  pose (g := trie_insert trie_new (B "FILTER_SORT") (B "1")).
  exists (ex_order s), (trie_insert (trie_insert (list_vars (ex_order s) (B "index")) (B "BLOGC_VERSION") (B "0.20")) (B "FILTER_SORT") (B "1")), g,
    [B "a.txt"; B "b.txt"; B "new.txt"].
  split; [|split; [|split]].
  - rewrite <- on_spec. vm_compute. discriminate.
  - apply asc_spec. vm_compute. reflexivity.
  - intros n Hn. unfold g, effective, only, in_trie.
    rewrite !trie_lookup_insert by (exact Hn || (apply nn; reflexivity)). rewrite trie_lookup_new.
    destruct (beq (B "FILTER_SORT") n) eqn:E; [apply beq_eq in E; subst n; vm_compute; reflexivity|].
    destruct (beq (B "BLOGC_VERSION") n) eqn:E'; [apply beq_eq in E'; subst n; vm_compute; reflexivity|].
    destruct (trie_lookup (list_vars _ _) n); reflexivity.
  - vm_compute. discriminate.
Qed.
Print Assumptions C56_global_refuted.
