(* C92: the pages of the listings of a site. *)
From Verif Require Import Base Utils Utf8Proofs Trie TrieProofs ShSpec Datetime Source BlockSpec Loader LoaderSpec LoaderProofs Settings SettingsSpec FilenameSpec P_Settings Renderer BlogcCmd Rules RulesSpec BuildSpec Main MainSpec P_Main P_Build P_MainRun SiteSpec P_Site PagesSpec.
From Verif Require P_Loader P_Order P_Filename P_BlogcCmd SourceDoc BlockOut Content Filename.
From Coq Require Import ZArith.
#[local] Open Scope nat_scope.
#[local] Arguments B : simpl never.

Lemma picked_fun {A} (P : A -> Prop) f l m : (forall x, f x = true <-> P x) -> picked P l m -> m = filter f l.
Proof.
  intros H. induction 1 as [|x l m Hx _ IH|x l m Hx _ IH]; [reflexivity| |]; cbn [filter].
  - apply H in Hx. rewrite Hx, <- IH. reflexivity.
  - destruct (f x) eqn:E; [apply H in E; contradiction|exact IH].
Qed.
Lemma picked_rev {A} (f : A -> bool) l : length (filter f (rev l)) = length (filter f l).
Proof.
  induction l as [|x l IH]; [reflexivity|]. cbn [rev]. rewrite filter_app, app_length, IH. cbn [filter]. destruct (f x); cbn [length]; lia.
Qed.
Lemma pages_length {A} n (l : list A) : 0 < n -> length (pages n l) = (length l + (n - 1)) / n.
Proof. intro H. unfold pages. apply chop_length; lia. Qed.
Lemma no_pages {A} n (l : list A) : 0 < n -> length (pages n l) = 0 <-> l = [].
Proof.
  intro H. rewrite pages_length by exact H. split; [|intros ->; cbn [length]; apply Nat.div_small; lia]. intro E. destruct l as [|x l]; [reflexivity|].
  apply Nat.div_small_iff in E; [cbn [length] in E; lia|lia].
Qed.
Lemma pages_bound {A} n (l : list A) : 0 < n -> length (pages n l) <= length l.
Proof.
  intro H. rewrite pages_length by exact H. destruct (length l) as [|m]; [rewrite Nat.div_small by lia; lia|]. apply Nat.div_le_upper_bound; [lia|]. nia.
Qed.
Lemma picked_length {A} (P : A -> Prop) l m : picked P l m -> length m <= length l.
Proof. induction 1; cbn [length]; lia. Qed.
(* a number is printed in one way only *)
Lemma nb_same c d : nb c = nb d -> c = d.
Proof. intro H. unfold nb in H. apply (f_equal ascii_of_N) in H. rewrite !ascii_N_embedding in H. exact H. Qed.
Definition value (d : bytes) : nat := fold_left (fun acc c => acc * 10 + (N.to_nat (nb c) - 48)) d 0.
Lemma value_snoc d c : value (d ++ [c]) = value d * 10 + (N.to_nat (nb c) - 48).
Proof. unfold value. rewrite fold_left_app. reflexivity. Qed.
Lemma digit_val c : is_digit c = true -> (48 <= nb c <= 57)%N.
Proof.
  intro H. pose proof (@forall_bytes (fun c => implb (is_digit c) (N.leb 48 (nb c) && N.leb (nb c) 57)) eq_refl c) as K. cbv beta in K. rewrite H in K.
  cbn [implb] in K. apply andb_true_iff in K. rewrite !N.leb_le in K. exact K.
Qed.
Lemma value_pos d : Forall (fun c => is_digit c = true) d -> d <> [] -> hd NUL d <> "0"%char -> 0 < value d.
Proof.
  induction d as [|c d IH] using rev_ind; [contradiction|]. intros H _ Hh. apply Forall_app in H. destruct H as [H1 H2]. inversion H2 as [|? ? Hc _]; subst.
  rewrite value_snoc. destruct d as [|b d].
  - cbn [app hd] in Hh. pose proof (digit_val Hc). assert (nb c <> 48%N); [|cbn; lia]. intro X. apply Hh. apply nb_same. exact X.
  - assert (0 < value (b :: d)); [|lia]. apply IH; [exact H1|discriminate|exact Hh].
Qed.
Lemma value_inj d : forall d', Forall (fun c => is_digit c = true) d -> Forall (fun c => is_digit c = true) d' -> (d <> [] -> hd NUL d <> "0"%char) -> (d' <> [] -> hd NUL d' <> "0"%char) ->
  value d = value d' -> d = d'.
Proof.
  induction d as [|c d IH] using rev_ind; intros d' H H' Hh Hh' E.
  - destruct d' as [|c' d']; [reflexivity|]. assert (0 < value (c' :: d')) by (apply value_pos; [exact H'|discriminate|apply Hh'; discriminate]). rewrite <- E in H0. cbn in H0. lia.
  - destruct (exists_last (l := d')) as (e & c' & ->).
    { intros ->. assert (0 < value (d ++ [c])) by (apply value_pos; [exact H|destruct d; discriminate|apply Hh; destruct d; discriminate]). rewrite E in H0. cbn in H0. lia. }
    rewrite !value_snoc in E. apply Forall_app in H, H'. destruct H as [H1 H2]. destruct H' as [H1' H2']. inversion H2 as [|? ? Hc _]; subst. inversion H2' as [|? ? Hc' _]; subst.
    pose proof (digit_val Hc). pose proof (digit_val Hc'). assert (E1 : value d = value e) by lia. assert (E2 : nb c = nb c') by lia. apply nb_same in E2. subst c'.
    f_equal. apply IH; [exact H1|exact H1'| | |exact E1].
    + intro Hd. destruct d as [|x d]; [contradiction|]. apply (Hh ltac:(discriminate)).
    + intro Hd. destruct e as [|x e]; [contradiction|]. apply (Hh' ltac:(discriminate)).
Qed.
Lemma numeral_fun z s s' : numeral z s -> numeral z s' -> s = s'.
Proof.
  intros (_ & (_ & H1 & H2) & H3) (_ & (_ & H1' & H2') & H3'). apply value_inj; [exact H1|exact H1'|auto|auto|]. unfold value. rewrite H2, H2'. reflexivity.
Qed.
Lemma numeral_text z s : numeral z s -> no_nul s.
Proof. intros (_ & (_ & H & _) & _) X. rewrite Forall_forall in H. apply H in X. discriminate X. Qed.
Lemma numeral_long z s : numeral z s -> (z < 2 ^ 63)%Z -> strtol s = (z, []).
Proof. intros (H1 & H2 & _) H. apply long_strtol. split; [|lia]. exists (Z.to_nat z), s. split; [exact H2|]. left. split; [lia|reflexivity]. Qed.

(* ---- the last page blogc finds ---- *)
Definition last_of_posts (ps : list (trie bytes)) (n : nat) (tag : option bytes) : option bytes :=
  match length (pages n (filter (tag_found tag) ps)) with 0 => None | m => Some (print_z (Z.of_nat m)) end.
Lemma last_page_fun ps n tag s : 0 < n -> last_page_is ps n tag s <-> s = last_of_posts ps n tag.
Proof.
  intro Hn. unfold last_page_is, last_of_posts. set (l := filter (tag_found tag) ps). pose proof (no_pages l Hn) as N. split.
  - intros (listed & Hp & H). assert (X : listed = l) by (apply (picked_fun (tag_found_spec tag) Hp)). subst listed. destruct s as [d|].
    + destruct H as [H1 H2]. destruct (length (pages n l)) as [|m] eqn:E; [destruct (H1 (proj1 N eq_refl))|]. f_equal. eapply numeral_fun; [exact H2|]. apply print_numeral. lia.
    + rewrite (proj2 N H). reflexivity.
  - intros ->. exists l. split; [apply picked_filter; apply tag_found_spec|]. destruct (length (pages n l)) as [|m] eqn:E; [apply N; reflexivity|].
    split; [intro X; apply N in X; discriminate X|apply print_numeral; lia].
Qed.

Lemma from_file_conf contents fuel conf conf' f : trie_lookup conf (B "TOCTREE_MAXDEPTH") = trie_lookup conf' (B "TOCTREE_MAXDEPTH") ->
  source_parse_from_file contents fuel conf f = source_parse_from_file contents fuel conf' f.
Proof. unfold source_parse_from_file. intros ->. reflexivity. Qed.

Lemma listing_last contents mktime strftime fuel conf l ps n v : Forall2 (fun f p => source_parse_from_file contents fuel conf f = Ok (Loaded p)) l ps ->
  uniform ps -> (Z.of_nat (length ps) < 2 ^ 24)%Z -> ~ enabled conf (B "FILTER_SORT") ->
  trie_lookup conf (B "FILTER_PAGE") = Some (B "1") -> trie_lookup conf (B "FILTER_PER_PAGE") = Some v -> long_int v (Z.of_nat n) -> 0 < n ->
  trie_lookup conf (B "LAST_PAGE") = None ->
  exists rv conf', source_parse_from_files contents mktime strftime fuel conf l = Ok (Loaded (rv, conf')) /\
    trie_lookup conf' (B "LAST_PAGE") = last_of_posts ps n (trie_lookup conf (B "FILTER_TAG")).
Proof.
  intros Hl Hu Hlen Hs Hp Hpp Hv Hn Hlast. unfold source_parse_from_files, gather. rewrite <- enabled_spec in Hs. apply not_true_is_false in Hs. rewrite Hs.
  rewrite (load_plain mktime strftime Hl). cbn [app rbind Nat.add]. apply ndated_uniform in Hu. pose proof (Forall2_length Hl) as Len.
  assert (E : Nat.ltb 0 (ndated ps) && Nat.ltb (ndated ps) (length l) = false).
  { rewrite Len. destruct Hu as [-> | ->]; [reflexivity|]. rewrite Nat.ltb_irrefl, andb_false_r. reflexivity. }
  rewrite E. cbn [rbind]. set (bo := str_to_bool (trie_lookup conf (B "FILTER_REVERSE"))). set (qs := if bo then fold_left (fun acc s => s :: acc) ps [] else ps).
  set (ft := trie_lookup conf (B "FILTER_TAG")).
  assert (L : length (filter (tag_found ft) qs) = length (filter (tag_found ft) ps)).
  { unfold qs. destruct bo; [|reflexivity]. rewrite rev_fold, app_nil_r. apply picked_rev. }
  assert (Lf : length (filter (tag_found ft) ps) <= length ps).
  { clear. induction ps as [|x m IH]; cbn [filter]; [lia|]. destruct (tag_found ft x); cbn [length]; lia. }
  set (m := length (pages n (filter (tag_found ft) ps))).
  assert (M : (Z.of_nat m = (Z.of_nat (length (filter (tag_found ft) ps)) + (Z.of_nat n - 1)) / Z.of_nat n)%Z).
  { unfold m. rewrite pages_length by exact Hn. rewrite Nat2Z.inj_div. f_equal. lia. }
  assert (Elast : last_page (Z.of_nat (length (filter (tag_found ft) qs))) (Z.of_nat n) = Ok (Z.of_nat m)).
  { rewrite L, M. apply last_page_exact; lia. }
  assert (P1 : long_int (B "1") 1) by (split; [exists 1, (B "1"); split; [split; [discriminate|split; [repeat constructor|reflexivity]]|left; split; reflexivity]|lia]).
  assert (Hr : (Z.of_nat n < 2 ^ 63)%Z) by (destruct Hv as [_ Hv]; lia).
  assert (Hpo : per_page_of conf (Z.of_nat n)) by (unfold per_page_of; rewrite Hpp; exact Hv).
  rewrite (@listing_paged conf qs (B "1") 1 (Z.of_nat n) (Z.of_nat m) Hp P1 Hpo ltac:(lia) ltac:(cbn; lia) Elast). cbn [rbind]. do 2 eexists. split; [reflexivity|].
  match goal with |- trie_lookup (paged_conf ?a ?b ?d ?e) _ = _ => destruct (paged_conf_ok a b d e) as (_ & _ & _ & _ & _ & F & _) end. rewrite F, Hlast.
  unfold last_of_posts. fold m. destruct m as [|m'] eqn:Em; [reflexivity|]. destruct (Z.ltb_spec 0 (Z.of_nat (S m'))); [|lia]. cbn [opt_if]. rewrite to_int_small; [reflexivity|].
  split; [lia|]. assert (Z.of_nat (S m') <= Z.of_nat (length ps))%Z; [|lia]. pose proof Em as Em'. rewrite M. apply Z.div_le_upper_bound; [lia|].
  assert (1 <= length ps). { destruct (length ps) eqn:X; [|lia]. exfalso. assert (Y : filter (tag_found ft) ps = []) by (apply length_zero_iff_nil; lia). rewrite <- (@no_pages _ n _ Hn) in Y. fold m in Y. lia. }
  nia.
Qed.

Lemma paths_all l : ~ In None l -> paths l = Ok (map f_path (somes l)).
Proof.
  induction l as [|[f|] l IH]; intro H; [reflexivity| |destruct (H (or_introl eq_refl))]. cbn [paths somes map]. rewrite IH; [reflexivity|]. intro X. apply H. right. exact X.
Qed.
(* no other part of the configuration has a say *)
Lemma effective_plain dev lv gv global tags version n : beq (B "MAKE_ENV") n = false -> beq (B "MAKE_ENV_DEV") n = false -> beq (B "MAKE_TAGS") n = false -> beq (B "BLOGC_VERSION") n = false ->
  effective dev lv gv global tags version n = or (in_trie lv n) (or (in_trie gv n) (trie_lookup global n)).
Proof.
  intros H1 H2 H3 H4. unfold effective, only. rewrite H1, H2, H3, H4. destruct dev; cbn [or]; destruct (in_trie lv n); cbn [or]; try reflexivity;
    destruct (in_trie gv n); cbn [or]; try reflexivity; destruct (trie_lookup global n); cbn [or]; try reflexivity; destruct tags; reflexivity.
Qed.

Lemma page_table x : means (trie_insert (trie_insert trie_new (B "FILTER_PAGE") (B "1")) (B "FILTER_PER_PAGE") x) [(B "FILTER_PAGE", B "1"); (B "FILTER_PER_PAGE", x)].
Proof. table. Qed.

Lemma tag_var t : means (trie_insert trie_new (B "FILTER_TAG") t) [(B "FILTER_TAG", t)].
Proof. table. Qed.

(* The pages of a listing are as many as its posts fill. *)
Theorem C92_pages : forall answer ps n tag listed k, 0 < n -> (Z.of_nat (length ps) < 2 ^ 24)%Z -> (forall tag, last_page_is ps n tag (answer tag)) -> picked (kept_by tag) ps listed ->
  BuildSpec.page_of answer tag k <-> 1 <= k <= length (pages n listed).
Proof.
  intros answer ps n tag listed k Hn Hlen Ha Hp. assert (X : listed = filter (tag_found tag) ps) by (apply (picked_fun (tag_found_spec tag) Hp)).
  pose proof (pages_bound listed Hn) as B1. pose proof (picked_length Hp) as B2. unfold BuildSpec.page_of. pose proof (Ha tag) as (l & H & K).
  assert (Y : l = listed) by (rewrite X; apply (picked_fun (tag_found_spec tag) H)). subst l. split.
  - intros (s & Es & Hk). rewrite Es in K. destruct K as [_ K]. rewrite (numeral_long K) in Hk by lia. cbn [fst] in Hk. lia.
  - intro Hk. destruct (answer tag) as [s|]; [|rewrite K in Hk; cbn in Hk; lia]. exists s. split; [reflexivity|]. destruct K as [_ K]. rewrite (numeral_long K) by lia. cbn [fst]. lia.
Qed.

Lemma dec_long k : 1 <= k -> (Z.of_nat k < 2 ^ 63)%Z -> long_int (Content.dec (N.of_nat k)) (Z.of_nat k).
Proof. intros H1 H2. split; [|lia]. exists k, (Content.dec (N.of_nat k)). split; [apply BlockOut.dec_decimal|]. left. split; reflexivity. Qed.
Lemma one_long : long_int (B "1") 1.
Proof. split; [exists 1, (B "1"); split; [split; [discriminate|split; [repeat constructor|reflexivity]]|left; split; reflexivity]|lia]. Qed.

(* where a listing is, and of which recipe *)
Inductive tables (c : ctx) : option bytes -> nat -> list (bytes * bytes) -> Prop :=
| T_first rule tag o : order_vars c (B "html_order") o -> tables c tag 1 (first_page c (B "posts_per_page") ++ o ++ html_kind c rule (B "post") ++ match tag with Some t => [(B "FILTER_TAG", t)] | None => [] end)
| T_page rule tag k o : order_vars c (B "html_order") o -> tables c tag k (numbered c k ++ o ++ html_kind c rule (B "post") ++ match tag with Some t => [(B "FILTER_TAG", t)] | None => [] end).
Lemma tables_ok c tag k l n sort ascending : tables c tag k l -> 1 <= k -> (Z.of_nat k < 2 ^ 63)%Z -> long_int (look_str c (B "posts_per_page")) (Z.of_nat n) ->
  (sort = true <-> on (look c (B "posts_sort"))) -> (ascending = true <-> asc (look c (B "html_order"))) ->
  exists s, assoc (B "FILTER_PAGE") l = Some s /\ long_int s (Z.of_nat k) /\ assoc (B "FILTER_PER_PAGE") l = Some (look_str c (B "posts_per_page")) /\
    assoc (B "FILTER_SORT") l = (if sort : bool then Some (B "1") else None) /\ assoc (B "FILTER_REVERSE") l = (if Bool.eqb sort ascending then Some (B "1") else None) /\
    assoc (B "FILTER_TAG") l = tag /\ assoc (B "TOCTREE_MAXDEPTH") l = None /\ (forall x, In x page_vars -> assoc x l = None).
Proof.
  intros T Hk Hk2 Hn Hs Ha.
  assert (O : forall o, order_vars c (B "html_order") o -> o = (if sort then [(B "FILTER_SORT", B "1")] else []) ++ (if Bool.eqb sort ascending then [(B "FILTER_REVERSE", B "1")] else [])).
  { intros o (s' & a' & S1 & S2 & ->). assert (X : s' = sort) by (destruct s', sort; try reflexivity; [symmetry; apply Hs, S1|apply S1, Hs]; reflexivity).
    assert (Y : a' = ascending) by (destruct a', ascending; try reflexivity; [symmetry; apply Ha, S2|apply S2, Ha]; reflexivity). subst. reflexivity. }
  destruct T as [rule tag o Ho|rule tag k o Ho]; rewrite (O o Ho).
  - exists (B "1"). assert (F : first_page c (B "posts_per_page") = [(B "FILTER_PAGE", B "1"); (B "FILTER_PER_PAGE", look_str c (B "posts_per_page"))]).
    { unfold first_page. rewrite (long_strtol Hn). cbn [fst]. destruct (Z.leb_spec 0 (Z.of_nat n)); [reflexivity|lia]. }
    rewrite F. split; [reflexivity|]. split; [exact one_long|]. split; [reflexivity|].
    destruct sort, ascending, tag; (split; [reflexivity|split; [reflexivity|split; [reflexivity|split; [reflexivity|]]]]); intros x Hx; unfold page_vars in Hx; cbn [In] in Hx;
      repeat (destruct Hx as [<-|Hx]; [reflexivity|]); destruct Hx.
  - exists (Content.dec (N.of_nat k)). split; [reflexivity|]. split; [apply dec_long; assumption|]. split; [reflexivity|].
    destruct sort, ascending, tag; (split; [reflexivity|split; [reflexivity|split; [reflexivity|split; [reflexivity|]]]]); intros x Hx; unfold page_vars in Hx; cbn [In] in Hx;
      repeat (destruct Hx as [<-|Hx]; [reflexivity|]); destruct Hx.
Qed.
(* the recipe of a listing: the name of the file tells the page and the tag *)
Lemma digits_named k : Content.dec (N.of_nat k) <> [] /\ ~ slash (Content.dec (N.of_nat k)).
Proof.
  pose proof (BlockOut.dec_decimal k) as D. destruct (P_Filename.digits_noslash D) as [H1 H2]. split; [exact H1|]. intros [r Hr]. apply H2. rewrite Hr. left. reflexivity.
Qed.
Lemma named_once c rule tag k n tag' k' : usual c -> listing_of c rule tag k n -> listing_of c rule tag' k' n -> tag' = tag /\ k' = k.
Proof.
  intros U L. destruct L as [n H|k n H|tags t n Ht Hi H|tags t k n Ht Hi H]; intro L'; inversion L' as [? G|k1 ? G|tags1 t1 ? Ht1 Hi1 G|tags1 t1 k1 ? Ht1 Hi1 G]; subst.
  - split; reflexivity.
  - split; [reflexivity|]. destruct (digits_named k), (digits_named k'). eapply P_Filename.decimal_inj; [apply BlockOut.dec_decimal|].
    erewrite P_Filename.C46_distinct_partial; [apply BlockOut.dec_decimal| | | | |rewrite G; symmetry; exact H]; assumption.
  - split; [|reflexivity]. f_equal. destruct (us_tags U Ht Hi), (us_tags U Ht1 Hi1). eapply P_Filename.C46_distinct_partial; [| | | |rewrite G; symmetry; exact H]; assumption.
  - destruct (us_tags U Ht Hi), (us_tags U Ht1 Hi1). assert (E : t1 = t /\ k' = k); [|destruct E as [-> ->]; split; reflexivity].
    eapply P_Filename.C46_tag_pages; [| |apply BlockOut.dec_decimal|apply BlockOut.dec_decimal|rewrite G; symmetry; exact H]; assumption.
Qed.
Lemma listing_recipe c rule tag k n j : usual c -> listing_of c rule tag k n -> recipe c rule n j ->
  exists v l, j = JBlogc (Some v) None true (c_entry c) (c_main c) (c_posts c) false /\ means v l /\ tables c tag k l.
Proof.
  intros U L R. pose proof (fun tag' k' => @named_once c rule tag k n tag' k' U L) as A2. destruct L as [n H|k n H|tags t n Ht Hi H|tags t k n Ht Hi H].
  - inversion R; subst. do 2 eexists. split; [reflexivity|]. split; [eassumption|]. rewrite <- (app_nil_r (html_kind _ _ _)). apply (@T_first c (B "index") None). assumption.
  - inversion R as [ | | |k' ? o v G1 G2 G3| | | | | ]; subst. destruct (A2 None k') as [_ X]; [constructor; assumption|]. subst k'.
    do 2 eexists. split; [reflexivity|]. split; [eassumption|]. rewrite <- (app_nil_r (html_kind _ _ _)). apply (@T_page c (B "pagination") None). assumption.
  - inversion R as [ | | | | | |tags' t' ? o v G0 G1 G2 G3 G4| | ]; subst. destruct (A2 (Some t') 1) as [X _]; [econstructor; eassumption|]. injection X as ->.
    do 2 eexists. split; [reflexivity|]. split; [eassumption|]. apply (@T_first c (B "tags") (Some t)). assumption.
  - inversion R as [ | | | |tags' t' k' ? o v G0 G1 G2 G3 G4| | | | ]; subst. destruct (A2 (Some t') k') as [X Y]; [econstructor; eassumption|]. injection X as ->. subst k'.
    do 2 eexists. split; [reflexivity|]. split; [eassumption|]. apply (@T_page c (B "pagination_tags") (Some t)). assumption.
Qed.
Lemma page_small answer ps n tag k : 0 < n -> (Z.of_nat (length ps) < 2 ^ 24)%Z -> (forall tag, last_page_is ps n tag (answer tag)) -> BuildSpec.page_of answer tag k ->
  1 <= k /\ (Z.of_nat k < 2 ^ 63)%Z /\ ((Z.of_nat k - 1) * Z.of_nat n < 2 ^ 63)%Z.
Proof.
  intros Hn Hlen Ha Hk. set (l := filter (tag_found tag) ps). assert (Hp : picked (kept_by tag) ps l) by (apply picked_filter; apply tag_found_spec).
  apply (C92_pages k Hn Hlen Ha Hp) in Hk. pose proof (pages_bound l Hn). pose proof (picked_length Hp). split; [lia|]. split; [lia|].
  rewrite (pages_length l Hn) in Hk. assert (X : n * k <= length l + (n - 1)) by (apply Nat.le_trans with (n * ((length l + (n - 1)) / n)); [nia|apply Nat.mul_div_le; lia]). nia.
Qed.

Section Ask.
Variable W : Type.
Variable file : W -> bytes -> option bytes.
Variable text : bytes -> option bytes.
Variable mktime : tm -> tm.
Variable strftime : option bytes -> bytes -> tm -> option bytes.
Variable funcs : W -> list (bytes * (vars -> vars)).
Variable sfuel rfuel : nat.
Variable mkdir fopen : W -> bytes -> bool.
Variable version : bytes.
Variable now : W -> Prop.
Variable command : W -> bytes -> bytes -> W * cmd_result.
Notation tells_blogc := (tells_blogc file text mktime strftime funcs sfuel rfuel mkdir fopen version now).
Notation posts_are := (posts_are file text sfuel).
Hypothesis no_func : forall w, Forall (fun f => fst f <> B "LAST_PAGE") (funcs w).

Lemma eval_last w conf : funcvars_eval (funcs w) conf (B "LAST_PAGE") = conf.
Proof.
  unfold funcvars_eval. destruct (trie_lookup conf (B "LAST_PAGE")); [reflexivity|]. destruct (find _ _) as [f|] eqn:E; [|reflexivity]. exfalso.
  apply find_some in E. destruct E as [E1 E2]. pose proof (no_func w) as H. rewrite Forall_forall in H. apply (H f E1). symmetry. apply beq_eq. exact E2.
Qed.
Lemma print_last w conv conf : exists conf', format_variable conv (funcs w) (B "LAST_PAGE") conf None None None = Ok (trie_lookup conf (B "LAST_PAGE"), conf').
Proof.
  unfold format_variable, get_variable. destruct (trie_lookup conf (B "LAST_PAGE")) as [v|] eqn:E; [eexists; reflexivity|].
  change (beq (B "LAST_PAGE") (B "FOREACH_ITEM")) with false. change (beq (B "LAST_PAGE") (B "FOREACH_VALUE")) with false. change (Nat.eqb (length (B "LAST_PAGE")) 0) with false. cbv iota.
  change (split_size (B "LAST_PAGE")) with (B "LAST_PAGE", @None Z). cbv iota beta. change (ends_with (B "LAST_PAGE") (B "_FORMATTED")) with false. cbv iota zeta.
  change (beq (B "LAST_PAGE") (B "FOREACH_ITEM")) with false. change (beq (B "LAST_PAGE") (B "FOREACH_VALUE")) with false. cbv iota. rewrite eval_last. rewrite E. eexists. reflexivity.
Qed.

Lemma asked src bin c w ps n lv tag : settings_parse src = Ok (Datatypes.inl (c_st c)) -> utf8 src -> tags_ok (c_st c) -> P_BlogcCmd.word (e_blogc (c_exec c)) bin ->
  (forall f, In (Some f) (c_posts c) -> P_BlogcCmd.line_path (f_path f)) -> ~ In None (c_posts c) ->
  tells_blogc bin command -> now w -> posts_are c w ps -> usual c -> long_int (look_str c (B "posts_per_page")) (Z.of_nat n) -> 0 < n ->
  named lv -> in_trie lv (B "FILTER_TAG") = tag -> (forall k, no_nul k -> beq (B "FILTER_TAG") k = false -> in_trie lv k = None) ->
  ask_blogc command c (Some (posts_pagination c trie_new (B "posts_per_page"))) lv (B "LAST_PAGE") w = (w, Ok (last_of_posts ps n tag)).
Proof.
  intros E U T Hb Hp Hn Tell Hw [Pf Pu Pn] [Ut Ul Us Ur Ug] Hl Hpos Nl Ht Hlv. unfold ask_blogc. rewrite (paths_all Hn).
  destruct (exec_get_variable _ _ _ _ _ _ _) as [cmd input] eqn:Eq.
  set (gv := posts_pagination c trie_new (B "posts_per_page")) in *.
  assert (Mg : means gv [(B "FILTER_PAGE", B "1"); (B "FILTER_PER_PAGE", look_str c (B "posts_per_page"))]).
  { unfold gv, posts_pagination. rewrite (long_strtol Hl). cbn [fst]. destruct (Z.leb_spec 0 (Z.of_nat n)); [|lia]. apply page_table. }
  assert (Ng : named (Some gv)).
  { eapply means_named; [exact Mg|]. constructor; [apply fine_ascii; reflexivity|]. constructor; [|constructor]. apply (fine_look E U); reflexivity. }
  assert (Vp : Forall BlogcCmdSpec.plain (B "LAST_PAGE")) by (apply P_BlogcCmd.plain_all; reflexivity).
  assert (Sl : Forall P_BlogcCmd.line_path (map f_path (somes (c_posts c)))).
  { apply Forall_forall. intros x Hx. apply in_map_iff in Hx. destruct Hx as (f & <- & Hf). apply Hp. apply somes_in. exact Hf. }
  destruct (@C65_variable_partial (contents file text w) mktime (strftime (look c (B "locale"))) (funcs w) sfuel rfuel (mkdir w) (fopen w) (fun _ t => t) version
    src (c_st c) bin (c_exec c) (Some gv) lv (B "LAST_PAGE") true (map f_path (somes (c_posts c))) false E eq_refl U T Hb Ng Nl Vp ltac:(discriminate) Sl)
    as (env & args & o & H1 & H2 & H3 & (H4 & H4' & H4c) & H5 & H6 & H7 & H8).
  fold gv in H1, H3. rewrite Eq in H1, H3. cbn [fst snd] in H1, H3. cbv iota in H3.
  assert (C0 : forall k, no_nulb k = true -> beq (B "MAKE_ENV") k = false -> beq (B "MAKE_ENV_DEV") k = false -> beq (B "MAKE_TAGS") k = false -> beq (B "BLOGC_VERSION") k = false ->
    trie_lookup (o_config o) k = or (in_trie lv k) (or (in_trie (Some gv) k) (trie_lookup (s_global (c_st c)) k))).
  { intros k K0 K1 K2 K3 K4. rewrite (H4c k (proj1 (no_nulb_spec k) K0)). apply effective_plain; assumption. }
  assert (Gk : forall k, no_nulb k = true -> in_trie (Some gv) k = assoc k [(B "FILTER_PAGE", B "1"); (B "FILTER_PER_PAGE", look_str c (B "posts_per_page"))]).
  { intros k K0. apply (proj2 Mg). apply no_nulb_spec. exact K0. }
  assert (Lk : forall k, no_nulb k = true -> beq (B "FILTER_TAG") k = false -> in_trie lv k = None) by (intros k K0; apply Hlv; apply no_nulb_spec; exact K0).
  assert (C1 : trie_lookup (o_config o) (B "FILTER_PAGE") = Some (B "1")).
  { rewrite C0 by reflexivity. rewrite (Lk (B "FILTER_PAGE")) by reflexivity. rewrite Gk by reflexivity. reflexivity. }
  assert (C2 : trie_lookup (o_config o) (B "FILTER_PER_PAGE") = Some (look_str c (B "posts_per_page"))).
  { rewrite C0 by reflexivity. rewrite (Lk (B "FILTER_PER_PAGE")) by reflexivity. rewrite Gk by reflexivity. reflexivity. }
  assert (C3 : trie_lookup (o_config o) (B "LAST_PAGE") = None).
  { rewrite C0 by reflexivity. rewrite (Lk (B "LAST_PAGE")) by reflexivity. rewrite Gk by reflexivity. apply Ul. vm_compute. do 4 right. left. reflexivity. }
  assert (C4 : trie_lookup (o_config o) (B "FILTER_TAG") = tag).
  { rewrite C0 by reflexivity. rewrite Ht, Gk by reflexivity. cbn [assoc or]. rewrite Ut. destruct tag; reflexivity. }
  assert (C5 : trie_lookup (o_config o) (B "FILTER_SORT") = trie_lookup (s_global (c_st c)) (B "FILTER_SORT")).
  { rewrite C0 by reflexivity. rewrite (Lk (B "FILTER_SORT")) by reflexivity. rewrite Gk by reflexivity. reflexivity. }
  assert (C6 : trie_lookup (o_config o) (B "TOCTREE_MAXDEPTH") = trie_lookup (s_global (c_st c)) (B "TOCTREE_MAXDEPTH")).
  { rewrite C0 by reflexivity. rewrite (Lk (B "TOCTREE_MAXDEPTH")) by reflexivity. rewrite Gk by reflexivity. reflexivity. }
  clearbody gv.
  assert (Pf' : P_Loader.posts (contents file text w) sfuel (o_config o) (map f_path (somes (c_posts c))) ps).
  { clear - Pf C6. unfold P_Loader.posts in *. induction Pf as [|f p fs qs X _ IH]; constructor; [|exact IH]. rewrite <- X. apply from_file_conf. exact C6. }
  assert (Us' : ~ enabled (o_config o) (B "FILTER_SORT")).
  { intro X. apply Us. unfold enabled in *. rewrite <- C5. exact X. }
  destruct (@listing_last (contents file text w) mktime (strftime (look c (B "locale"))) sfuel (o_config o) _ ps n _ Pf' Pu Pn Us' C1 C2 Hl Hpos C3) as (rv & conf' & L1 & L2).
  rewrite C4 in L2.
  unfold compile in H3. rewrite H5 in H3. cbn [negb andb] in H3. rewrite L1 in H3. cbn [rbind] in H3. rewrite H8 in H3. cbn [load_entries rbind] in H3. rewrite H6 in H3.
  destruct (print_last w (Main.convert mktime (strftime (look c (B "locale")))) conf') as (conf2 & P).
  match type of H3 with _ = rbind ?x _ => assert (Px : x = Ok (trie_lookup conf' (B "LAST_PAGE"), conf2)) by exact P end. rewrite Px, L2 in H3. cbn [rbind fst] in H3. rewrite H2 in H1.
  destruct (last_of_posts ps n tag) as [v|] eqn:Ev.
  - destruct (Tell w cmd input (look c (B "locale")) args _ _ Hw H1 H3) as (err & R).
    { intros e [<-|[]]. reflexivity. }
    rewrite R. f_equal. f_equal. cbn [get_variable_result Nat.eqb negb].
    assert (Nv : no_nul v).
    { assert (X : last_page_is ps n tag (Some v)) by (apply last_page_fun; [exact Hpos|symmetry; exact Ev]). destruct X as (l & _ & _ & X). exact (numeral_text X). }
    assert (No : no_nul (v ++ [LF])) by (intro X; apply in_app_iff in X; destruct X as [X|[X|[]]]; [exact (Nv X)|discriminate X]).
    assert (X : printed [EPrint (v ++ [LF])] = Some (v ++ [LF])) by (unfold printed; cbn [flat_map]; rewrite app_nil_r; destruct v; reflexivity).
    rewrite X. rewrite (cstr_id No), app_length. cbn [length]. replace (length v + 1 - 1) with (length v) by lia. f_equal. apply SourceDoc.strndup_app. exact Nv.
  - destruct (Tell w cmd input (look c (B "locale")) args _ _ Hw H1 H3) as (err & R).
    { intros e [<-|[]]. reflexivity. }
    rewrite R. reflexivity.
Qed.

Lemma loads_same w x conf l ps : (forall f, In f l -> contents file text w f = contents file text x f) ->
  P_Loader.posts (contents file text w) sfuel conf l ps -> P_Loader.posts (contents file text x) sfuel conf l ps.
Proof.
  intros H. unfold P_Loader.posts. induction 1 as [|f p l ps X _ IH]; constructor.
  - rewrite <- X. symmetry. apply from_file_agree. apply H. left. reflexivity.
  - apply IH. intros g Hg. apply H. right. exact Hg.
Qed.
Lemma posts_same c w x ps : same_inputs file c w x -> posts_are c w ps -> posts_are c x ps.
Proof.
  intros H [Pf Pu Pn]. constructor; [|exact Pu|exact Pn]. revert Pf. apply loads_same. intros p Hp. apply in_map_iff in Hp. destruct Hp as (f & <- & Hf).
  apply contents_same. apply H. apply source_input. apply in_app_iff. left. apply somes_in. exact Hf.
Qed.

(* A site knows the pages of its listings: what blogc-make is told when it asks blogc for the
   last page is the number of pages its posts fill. *)
Theorem C92_answers : forall src bin c answer w ps n, settings_parse src = Ok (Datatypes.inl (c_st c)) -> utf8 src -> tags_ok (c_st c) -> P_BlogcCmd.word (e_blogc (c_exec c)) bin ->
  (forall f, In (Some f) (c_posts c) -> P_BlogcCmd.line_path (f_path f)) -> site_ok c -> tells_blogc bin command -> posts_are c w ps -> usual c ->
  long_int (look_str c (B "posts_per_page")) (Z.of_nat n) -> 0 < n -> (forall tag, last_page_is ps n tag (answer tag)) ->
  answers command (meanwhile file now c w) c answer.
Proof.
  intros src bin c answer w ps n E U T Hb Hp (_ & Hn & _) Tell Pa Hu Hl Hpos Ha. split; [|split].
  - intros x [Hx Nx]. rewrite (proj1 (last_page_fun ps None _ Hpos) (Ha None)).
    eapply asked; try eassumption; [exact (posts_same Hx Pa)|exact I|reflexivity|reflexivity].
  - intros tags t x [Hx Nx] Et Ht. rewrite (proj1 (last_page_fun ps (Some t) _ Hpos) (Ha (Some t))).
    assert (M : means (trie_insert trie_new (B "FILTER_TAG") t) [(B "FILTER_TAG", t)]) by apply tag_var.
    eapply asked; try eassumption; [exact (posts_same Hx Pa)|eapply means_named; [exact M|exact (fine_tag E U Et Ht)]| |].
    + cbn [in_trie]. rewrite (proj2 M) by (apply no_nulb_spec; reflexivity). cbn [assoc]. rewrite beq_refl. reflexivity.
    + intros k Hk Hd. cbn [in_trie]. rewrite (proj2 M k Hk). cbn [assoc]. rewrite Hd. reflexivity.
  - intros t s Es. pose proof (Ha t) as X. rewrite Es in X. destruct X as (l & H & _ & X). rewrite (@numeral_long _ _ X); [cbn [fst]; lia|].
    pose proof (pages_bound l Hpos). pose proof (picked_length H). destruct Pa as [_ _ Pn]. lia.
Qed.

(* ---- what the pages show ---- *)
Lemma load_conf ct st conf conf' sort l : trie_lookup conf (B "TOCTREE_MAXDEPTH") = trie_lookup conf' (B "TOCTREE_MAXDEPTH") -> forall acc m,
  load_go ct mktime st sfuel conf sort l acc m = load_go ct mktime st sfuel conf' sort l acc m.
Proof.
  intro H. induction l as [|f l IH]; intros acc m; [reflexivity|]. cbn [load_go]. rewrite (from_file_conf ct sfuel f H). destruct (source_parse_from_file ct sfuel conf' f) as [[s|e]| |]; cbn [rbind]; try reflexivity.
  cbv zeta. destruct sort; [|apply IH]. destruct (trie_lookup s (B "DATE")); [|reflexivity]. destruct (convert_datetime _ _ _ _); [apply IH|reflexivity].
Qed.
(* the posts in their order *)
Definition in_order ct st conf l (sort reverse : bool) : res (loaded (list (trie bytes))) :=
  gather ct mktime st sfuel (trie_insert (trie_insert conf (B "FILTER_SORT") (if sort then B "1" else [])) (B "FILTER_REVERSE") (if reverse then B "1" else [])) l.
Lemma gather_conf ct st conf conf' l sort reverse : trie_lookup conf (B "TOCTREE_MAXDEPTH") = trie_lookup conf' (B "TOCTREE_MAXDEPTH") ->
  (sort = true <-> enabled conf (B "FILTER_SORT")) -> (reverse = true <-> enabled conf (B "FILTER_REVERSE")) ->
  gather ct mktime st sfuel conf l = in_order ct st conf' l sort reverse.
Proof.
  intros H Hs Hr. unfold in_order, gather. rewrite (enabled_bool Hs), (enabled_bool Hr).
  rewrite !trie_lookup_insert by (apply no_nulb_spec; reflexivity). change (beq (B "FILTER_REVERSE") (B "FILTER_SORT")) with false. rewrite !beq_refl. cbv iota.
  replace (str_to_bool (Some (if sort then B "1" else []))) with sort by (destruct sort; reflexivity).
  replace (str_to_bool (Some (if reverse then B "1" else []))) with reverse by (destruct reverse; reflexivity).
  erewrite load_conf; [reflexivity|]. rewrite !trie_lookup_insert by (apply no_nulb_spec; reflexivity).
  change (beq (B "FILTER_REVERSE") (B "TOCTREE_MAXDEPTH")) with false. change (beq (B "FILTER_SORT") (B "TOCTREE_MAXDEPTH")) with false. exact H.
Qed.
Lemma ordered ct st conf l ps sort reverse seconds : P_Loader.posts ct sfuel conf l ps -> uniform ps ->
  (sort = true -> P_Loader.clock mktime st seconds /\ Forall (fun p => exists z, dated seconds p z) ps /\ within_68_years seconds ps) ->
  exists qs, in_order ct st conf l sort reverse = Ok (Loaded qs) /\ arranged seconds sort reverse ps qs /\ length qs = length ps.
Proof.
  intros Hl Hu Hs. unfold in_order. set (conf' := trie_insert _ _ _).
  assert (E0 : trie_lookup conf' (B "TOCTREE_MAXDEPTH") = trie_lookup conf (B "TOCTREE_MAXDEPTH")).
  { unfold conf'. rewrite !trie_lookup_insert by (apply no_nulb_spec; reflexivity).
    change (beq (B "FILTER_REVERSE") (B "TOCTREE_MAXDEPTH")) with false. change (beq (B "FILTER_SORT") (B "TOCTREE_MAXDEPTH")) with false. reflexivity. }
  assert (E1 : str_to_bool (trie_lookup conf' (B "FILTER_SORT")) = sort).
  { unfold conf'. rewrite !trie_lookup_insert by (apply no_nulb_spec; reflexivity). change (beq (B "FILTER_REVERSE") (B "FILTER_SORT")) with false. rewrite beq_refl. destruct sort; reflexivity. }
  assert (E2 : str_to_bool (trie_lookup conf' (B "FILTER_REVERSE")) = reverse).
  { unfold conf'. rewrite trie_lookup_insert by (apply no_nulb_spec; reflexivity). rewrite beq_refl. destruct reverse; reflexivity. }
  clearbody conf'.
  assert (Hl' : P_Loader.posts ct sfuel conf' l ps).
  { clear - Hl E0. unfold P_Loader.posts in *. induction Hl as [|f p fs qs X _ IH]; constructor; [|exact IH]. rewrite <- X. apply from_file_conf. exact E0. }
  assert (Len : forall qs, arranged seconds sort reverse ps qs -> length qs = length ps).
  { intros qs H. unfold arranged in H. destruct sort.
    - destruct H as (ss & P1 & _ & _ & P2). rewrite <- (Forall2_length P2). symmetry. apply Permutation.Permutation_length. exact P1.
    - rewrite H. destruct reverse; [apply rev_length|reflexivity]. }
  destruct sort.
  - destruct (Hs eq_refl) as (Hc & D1 & D2). destruct (P_Loader.clock_parts Hc) as [K1 K2].
    destruct (@gather_ok ct mktime st sfuel conf' seconds K1 K2 l ps Hl' Hu) as (qs & E & H).
    { intros _. split; [|exact D2]. eapply Forall_impl; [|exact D1]. intros p (z & Hz) X'. unfold dated in Hz. rewrite X' in Hz. discriminate Hz. }
    unfold sorting, reversing in H. rewrite E1, E2 in H. exists qs. split; [exact E|]. split; [exact H|exact (Len qs H)].
  - unfold gather. rewrite E1, E2. rewrite (load_plain mktime st Hl'). cbn [app rbind Nat.add]. apply ndated_uniform in Hu. pose proof (Forall2_length Hl') as Ln.
    assert (E : Nat.ltb 0 (ndated ps) && Nat.ltb (ndated ps) (length l) = false).
    { rewrite Ln. destruct Hu as [-> | ->]; [reflexivity|]. rewrite Nat.ltb_irrefl, andb_false_r. reflexivity. }
    rewrite E. eexists. split; [reflexivity|]. assert (H : arranged seconds false reverse ps (if reverse then fold_left (fun acc s => s :: acc) ps [] else ps)).
    { unfold arranged. destruct reverse; [|reflexivity]. rewrite rev_fold, app_nil_r. reflexivity. }
    split; [exact H|exact (Len _ H)].
Qed.

(* one page *)
Lemma page_shown c w path qs n v l k s tag listed sort reverse : made_by file text mktime strftime funcs sfuel version c w path (JBlogc (Some v) None true (c_entry c) (c_main c) (c_posts c) false) ->
  means v l -> assoc (B "FILTER_PAGE") l = Some s -> long_int s (Z.of_nat k) -> 1 <= k ->
  assoc (B "FILTER_PER_PAGE") l = Some (look_str c (B "posts_per_page")) -> long_int (look_str c (B "posts_per_page")) (Z.of_nat n) -> 0 < n ->
  assoc (B "FILTER_SORT") l = (if sort : bool then Some (B "1") else None) -> assoc (B "FILTER_REVERSE") l = (if reverse : bool then Some (B "1") else None) ->
  assoc (B "FILTER_TAG") l = tag -> assoc (B "TOCTREE_MAXDEPTH") l = None -> (forall x, In x page_vars -> assoc x l = None) ->
  usual c -> in_order (contents file text w) (strftime (look c (B "locale"))) (s_global (c_st c)) (map f_path (somes (c_posts c))) sort reverse = Ok (Loaded qs) ->
  (Z.of_nat (length qs) < 2 ^ 24)%Z -> ((Z.of_nat k - 1) * Z.of_nat n < 2 ^ 63)%Z -> picked (kept_by tag) qs listed ->
  shows_page file text mktime strftime funcs sfuel c w path k (pages n listed).
Proof.
  intros Hm Hv Hp Hs Hk Hpp Hn Hpos Hsort Hrev Htag Htoc Hpv [Ut Ul Us Ur Ug] Hq Hlen Hov Hpick.
  cbn [made_by] in Hm. destruct Hm as (o & p & page & moment & (M1 & M2 & M3) & O1 & O2 & O3 & O4 & Fp & Hpage & Hfile).
  destruct Hpage as (posts & config & entries & t & src & ast & G1 & G2 & G3 & G4 & G5 & _ & G7). rewrite O1 in G2, G7. rewrite O2 in G3. injection G3 as <-. rewrite O4 in G2.
  assert (Ep : p = map f_path (somes (c_posts c))).
  { clear - Fp. induction Fp as [|x y xs ys (f & -> & ->) _ IH]; [reflexivity|]. cbn [somes flat_map app map]. f_equal. exact IH. }
  subst p.
  assert (C0 : forall x, no_nulb x = true -> beq (B "MAKE_ENV") x = false -> beq (B "MAKE_ENV_DEV") x = false -> beq (B "MAKE_TAGS") x = false -> beq (B "BLOGC_VERSION") x = false ->
    trie_lookup (o_config o) x = or (assoc x l) (trie_lookup (s_global (c_st c)) x)).
  { intros x K0 K1 K2 K3 K4. pose proof (proj1 (no_nulb_spec x) K0) as Kn. rewrite (M3 x Kn). rewrite effective_plain by assumption. cbn [in_trie or]. rewrite (proj2 Hv x Kn). reflexivity. }
  assert (C1 : trie_lookup (o_config o) (B "FILTER_PAGE") = Some s) by (rewrite C0 by reflexivity; rewrite Hp; reflexivity).
  assert (C2 : trie_lookup (o_config o) (B "FILTER_PER_PAGE") = Some (look_str c (B "posts_per_page"))) by (rewrite C0 by reflexivity; rewrite Hpp; reflexivity).
  assert (C3 : trie_lookup (o_config o) (B "FILTER_TAG") = tag) by (rewrite C0 by reflexivity; rewrite Htag, Ut; destruct tag; reflexivity).
  assert (C4 : trie_lookup (o_config o) (B "TOCTREE_MAXDEPTH") = trie_lookup (s_global (c_st c)) (B "TOCTREE_MAXDEPTH")) by (rewrite C0 by reflexivity; rewrite Htoc; reflexivity).
  assert (C5 : forall x, In x page_vars -> trie_lookup (o_config o) x = None).
  { intros x Hx. assert (K : trie_lookup (o_config o) x = or (assoc x l) (trie_lookup (s_global (c_st c)) x)).
    { clear - Hx C0. unfold page_vars in Hx. cbn [In] in Hx. repeat (destruct Hx as [<-|Hx]; [apply C0; reflexivity|]). destruct Hx. }
    rewrite K, (Hpv x Hx), (Ul x Hx). reflexivity. }
  assert (C6 : forall (b : bool) x, no_nulb x = true -> beq (B "MAKE_ENV") x = false -> beq (B "MAKE_ENV_DEV") x = false -> beq (B "MAKE_TAGS") x = false -> beq (B "BLOGC_VERSION") x = false ->
    assoc x l = (if b then Some (B "1") else None) -> ~ enabled (s_global (c_st c)) x -> b = true <-> enabled (o_config o) x).
  { intros b x K0 K1 K2 K3 K4 K5 K6. pose proof (C0 x K0 K1 K2 K3 K4) as K. rewrite K5 in K. unfold enabled in *. rewrite K. destruct b; cbn [or]; split; intro X.
    - exists (B "1"). split; [reflexivity|left; reflexivity].
    - reflexivity.
    - discriminate X.
    - destruct (K6 X). }
  assert (Es : sort = true <-> enabled (o_config o) (B "FILTER_SORT")) by (apply C6; try reflexivity; assumption).
  assert (Er : reverse = true <-> enabled (o_config o) (B "FILTER_REVERSE")) by (apply C6; try reflexivity; assumption).
  unfold source_parse_from_files in G1. rewrite (@gather_conf _ _ _ _ _ sort reverse C4 Es Er), Hq in G1. cbn [rbind] in G1.
  assert (Hpo : per_page_of (o_config o) (Z.of_nat n)) by (unfold per_page_of; rewrite C2; exact Hn).
  destruct (@P_Loader.listing_page (o_config o) qs s (Z.of_nat k) (Z.of_nat n) C1 Hs ltac:(lia) Hpo) as (listed' & conf' & L1 & L2 & _ & L4 & L5 & L6 & L7 & L8 & _);
    [destruct Hn as [_ Hn]; lia|exact Hov|exact Hlen|]. cbv zeta in *.
  rewrite C3 in L2. assert (El : listed' = listed).
  { rewrite (picked_fun (tag_found_spec tag) L2), (picked_fun (tag_found_spec tag) Hpick). reflexivity. }
  subst listed'. rewrite L1 in G1. cbn [rbind] in G1. injection G1 as <- <-. rewrite Nat2Z.id in *. replace (Z.to_nat (Z.of_nat k - 1)) with (k - 1) in * by lia.
  set (all := pages n listed) in *. exists conf', entries, src, ast, page, moment. split; [|split; [exact G2|split; [exact G4|split; [exact G5|split; [exact Hfile|exact G7]]]]].
  constructor; unfold says.
  - exact L4.
  - destruct (Nat.ltb_spec 1 k), (Z.ltb_spec 1 (Z.of_nat k)); try lia; [replace (Z.of_nat (k - 1)) with (Z.of_nat k - 1)%Z by lia; exact L5|]. rewrite L5. apply C5. right. left. reflexivity.
  - destruct (Nat.ltb_spec k (length all)), (Z.ltb_spec (Z.of_nat k) (Z.of_nat (length all))); try lia; [replace (Z.of_nat (k + 1)) with (Z.of_nat k + 1)%Z by lia; exact L6|].
    rewrite L6. apply C5. do 2 right. left. reflexivity.
  - destruct (Nat.leb_spec k (length all)), (Z.leb_spec (Z.of_nat k) (Z.of_nat (length all))); try lia; [exists (B "1"); split; [|exact L7]|].
    + split; [lia|]. split; [split; [discriminate|split; [repeat constructor|reflexivity]]|discriminate].
    + rewrite L7. apply C5. do 3 right. left. reflexivity.
  - destruct (Nat.ltb_spec 0 (length all)), (Z.ltb_spec 0 (Z.of_nat (length all))); try lia; [exact L8|]. rewrite L8. apply C5. do 4 right. left. reflexivity.
Qed.

End Ask.
Print Assumptions C92_answers.
Print Assumptions C92_pages.

Section Built.
Variable W : Type.
Variable stat : W -> bytes -> option (Z * Z).
Variable file : W -> bytes -> option bytes.
Variable text : bytes -> option bytes.
Variable mktime : tm -> tm.
Variable strftime : option bytes -> bytes -> tm -> option bytes.
Variable funcs : W -> list (bytes * (vars -> vars)).
Variable sfuel rfuel : nat.
Variable mkdir fopen : W -> bytes -> bool.
Variable version : bytes.
Variable now : W -> Prop.
Variable command : W -> bytes -> bytes -> W * cmd_result.
Variable cp : W -> fctx -> fctx -> W * nat.

(* After a build that reports success the listings show all posts, in their order, so many a
   page: page [k] of the listing of all posts, or of a tag, holds the [k]-th piece, and knows
   its number, its neighbours and the last page. *)
Theorem C93_partial : forall src bin c answer w w' ps n seconds sort ascending,
  settings_parse src = Ok (Datatypes.inl (c_st c)) -> utf8 src -> tags_ok (c_st c) -> P_BlogcCmd.word (e_blogc (c_exec c)) bin ->
  nameable c answer -> apart c answer -> site_ok c ->
  runs_blogc stat file text mktime strftime funcs sfuel rfuel mkdir fopen version now c bin command ->
  tells_blogc file text mktime strftime funcs sfuel rfuel mkdir fopen version now bin command -> copies stat file now c cp ->
  (forall w, Forall (fun f => fst f <> B "LAST_PAGE") (funcs w)) -> now w ->
  posts_are file text sfuel c w ps -> usual c -> long_int (look_str c (B "posts_per_page")) (Z.of_nat n) -> 0 < n -> (forall tag, last_page_is ps n tag (answer tag)) ->
  (sort = true <-> on (look c (B "posts_sort"))) -> (ascending = true <-> asc (look c (B "html_order"))) ->
  (sort = true -> P_Loader.clock mktime (strftime (look c (B "locale"))) seconds /\ Forall (fun p => exists z, dated seconds p z) ps /\ within_68_years seconds ps) ->
  honest stat file text mktime strftime funcs sfuel version c answer w -> all_exec stat command cp c w = (w', Ok 0) ->
  exists qs, arranged seconds sort (Bool.eqb sort ascending) ps qs /\
  forall rule tag k nm d listed, listing_of c rule tag k nm -> product c answer rule nm d -> alone c answer rule nm ->
    picked (kept_by tag) qs listed -> shows_page file text mktime strftime funcs sfuel c w' (absolute c nm) k (pages n listed).
Proof.
  intros src bin c answer w w' ps n seconds sort ascending E U T Hb N A Ok_ Run Tell Cp Nf Hnow Pa Hu Hl Hpos Ha Hsort Hasc Hclock H Hr.
  assert (An : answers command (meanwhile file now c w) c answer).
  { eapply C92_answers; try eassumption. intros f Hf. apply (na_sources N). apply in_app_iff. left. exact Hf. }
  destruct (C89_partial E U T Hb N A Ok_ Run Cp An Hnow H Hr) as (_ & Q & R). specialize (R eq_refl).
  pose proof (posts_same Q Pa) as [Pf Pu Pn].
  destruct (@ordered mktime sfuel (contents file text w') (strftime (look c (B "locale"))) (s_global (c_st c)) _ ps sort (Bool.eqb sort ascending) seconds Pf Pu Hclock) as (qs & G1 & G2 & G3).
  exists qs. split; [exact G2|]. intros rule tag k nm d listed L P Al Hp.
  assert (Hk : 1 <= k /\ (Z.of_nat k < 2 ^ 63)%Z /\ ((Z.of_nat k - 1) * Z.of_nat n < 2 ^ 63)%Z).
  { assert (One : 1 <= 1 /\ (Z.of_nat 1 < 2 ^ 63)%Z /\ ((Z.of_nat 1 - 1) * Z.of_nat n < 2 ^ 63)%Z) by lia.
    pose proof (fun tag' k' => @named_once c rule tag k nm tag' k' Hu L) as Al2. destruct L as [nm L|k nm L|tags t nm Ht Hi L|tags t k nm Ht Hi L]; [exact One| |exact One|].
    - inversion P as [ | | |k' ? P1 P2 P3 P4| | | | | ]; subst. destruct (Al2 None k') as [_ ->]; [constructor; assumption|]. eapply page_small; eassumption.
    - inversion P as [ | | | |tags' t' k' ? P0 P1 P2 P3 P4 P5| | | | ]; subst. destruct (Al2 (Some t') k') as [X Y]; [econstructor; eassumption|]. injection X as ->. subst k'. eapply page_small; eassumption. }
  destruct Hk as (K1 & K2 & K3).
  destruct (R rule nm d P) as [_ (rule' & n' & d' & j & R1 & R2 & R3 & R4)]. destruct (Al _ _ _ R1 R3) as [-> ->].
  destruct (listing_recipe Hu L R2) as (v & l & -> & Hv & Ht). destruct (tables_ok Ht K1 K2 Hl Hsort Hasc) as (s & S1 & S2 & S3 & S4 & S5 & S6 & S7 & S8).
  eapply page_shown; try eassumption. rewrite G3. exact Pn.
Qed.
End Built.
Print Assumptions C93_partial.

(* ---- the site of C89's example ---- *)
Lemma product_ext c answer answer' rule n d : answer None = answer' None -> (forall tags t, s_tags (c_st c) = Some tags -> In t tags -> answer (Some t) = answer' (Some t)) ->
  product c answer rule n d -> product c answer' rule n d.
Proof.
  intros H0 H P. destruct P; try (econstructor; eassumption).
  - econstructor; try eassumption. unfold BuildSpec.page_of in *. rewrite <- H0. assumption.
  - econstructor; try eassumption. unfold BuildSpec.page_of in *. erewrite <- H; eassumption.
Qed.
Definition e_post (f : bytes) : trie bytes :=
  match source_parse_from_file (contents s_file Some s_world) 400 (s_global s_settings_of) f with Ok (Loaded p) => p | _ => trie_new end.
Definition e_posts : list (trie bytes) := [e_post (B "/r/a.txt"); e_post (B "/r/b.txt")].
Definition e_answer (tag : option bytes) : option bytes := last_of_posts e_posts 1 tag.
Lemma e_all : e_answer None = s_answer None /\ forall tags t, s_tags (c_st s_site) = Some tags -> In t tags -> e_answer (Some t) = s_answer (Some t).
Proof.
  split; [vm_compute; reflexivity|]. intros tags t E Ht. assert (X : s_tags (c_st s_site) = Some [B "x"]) by (vm_compute; reflexivity). rewrite X in E. injection E as <-.
  destruct Ht as [<-|[]]. vm_compute. reflexivity.
Qed.
Lemma e_product rule n d : product s_site e_answer rule n d <-> product s_site s_answer rule n d.
Proof. destruct e_all as [H1 H2]. split; apply product_ext; auto; intros; symmetry; eauto. Qed.
Lemma e_posts_are : posts_are s_file Some 400 s_site s_world e_posts.
Proof.
  constructor.
  - unfold P_Loader.posts. assert (X : map f_path (somes (c_posts s_site)) = [B "/r/a.txt"; B "/r/b.txt"]) by (vm_compute; reflexivity). rewrite X.
    constructor; [vm_compute; reflexivity|]. constructor; [vm_compute; reflexivity|constructor].
  - right. constructor; [intro X; apply X; vm_compute; reflexivity|]. constructor; [intro X; apply X; vm_compute; reflexivity|constructor].
  - vm_compute. reflexivity.
Qed.
Lemma e_usual : usual s_site.
Proof.
  constructor.
  - vm_compute. reflexivity.
  - intros v Hv. unfold page_vars in Hv. cbn [In] in Hv. repeat (destruct Hv as [<-|Hv]; [vm_compute; reflexivity|]). destruct Hv.
  - intros (v & E & _). vm_compute in E. discriminate E.
  - intros (v & E & _). vm_compute in E. discriminate E.
  - intros tags t E Ht. assert (X : s_tags (c_st s_site) = Some [B "x"]) by (vm_compute; reflexivity). rewrite X in E. injection E as <-. destruct Ht as [<-|[]].
    split; [discriminate|]. intros [r X']. discriminate X'.
Qed.
Lemma e_per_page : long_int (look_str s_site (B "posts_per_page")) (Z.of_nat 1).
Proof. assert (X : look_str s_site (B "posts_per_page") = B "1") by (vm_compute; reflexivity). rewrite X. exact one_long. Qed.
Lemma e_tells_at now : tells_blogc s_file Some (fun t => t) (fun _ _ _ => None) (fun _ => []) 400 400 (fun _ _ => true) (fun _ _ => true) (B "1") now (B "blogc") s_command.
Proof.
  intros w cmd input locale args l n Hn Hw E Hl. exists None. unfold s_command. rewrite Hw, call_words. unfold s_blogc. 
  replace (blogc_main (contents s_file Some w) (fun t => t) (fun _ _ => None) [] 400 400 (fun _ => true) (fun _ => true) (fun _ t => t) (B "1") args input) with (Ok (l, n)).
  assert (X : s_effects l w = w).
  { clear - Hl. induction l as [|e l IH]; [reflexivity|]. destruct e; cbn [s_effects]; try (apply IH; intros e He; apply Hl; right; exact He).
    - discriminate (Hl _ (or_introl eq_refl)).
    - discriminate (Hl _ (or_introl eq_refl)). }
  rewrite X. reflexivity.
Qed.
Notation e_tells := (@e_tells_at (s_now_at 9)).
Lemma e_nameable : nameable s_site e_answer.
Proof.
  destruct s_world_ok as (_ & [N1 N2 N3 N4 N5 N6] & _). constructor; [exact N1|exact N2|exact N3|exact N4|exact N5|]. intros rule n d P. apply (N6 rule n d). apply e_product. exact P.
Qed.
Lemma e_apart : apart s_site e_answer.
Proof.
  destruct s_world_ok as (_ & _ & [A1 A2] & _). constructor.
  - intros rule n d f P. apply (A1 rule n d). apply e_product. exact P.
  - intros rule n d rule' n' d' P P'. apply (A2 rule n d rule' n' d'); apply e_product; assumption.
Qed.
Lemma e_honest : honest s_stat s_file Some (fun t => t) (fun _ _ _ => None) (fun _ => []) 400 (B "1") s_site e_answer s_world.
Proof.
  destruct s_world_ok as (_ & _ & _ & H). intros rule n d P U. apply e_product in P. destruct (H rule n d P U) as (rule' & n' & d' & j & H1 & H2 & H3 & H4).
  exists rule', n', d', j. split; [apply e_product; exact H1|]. split; [exact H2|]. split; [exact H3|exact H4].
Qed.
Lemma e_last tag : last_page_is e_posts 1 tag (e_answer tag).
Proof. apply last_page_fun; [lia|reflexivity]. Qed.
Lemma e_page_2 : listing_of s_site (B "pagination") None 2 (B "_build/page/2/index.html") /\ absolute s_site (B "_build/page/2/index.html") = B "/r/_build/page/2/index.html" /\
  (exists d, product s_site e_answer (B "pagination") (B "_build/page/2/index.html") d) /\
  alone s_site e_answer (B "pagination") (B "_build/page/2/index.html").
Proof.
  assert (G : Filename.generate_filename (Some (c_short_output s_site)) (look s_site (B "blog_prefix")) (look s_site (B "pagination_prefix")) (Some (Content.dec (N.of_nat 2))) (look s_site (B "html_ext")) = Some (B "_build/page/2/index.html")) by (vm_compute; reflexivity).
  split; [apply L_page; exact G|]. split; [vm_compute; reflexivity|]. split.
  - eexists. eapply (@P_pagination s_site e_answer 2); [vm_compute; discriminate| | |exact G].
    + unfold shown. rewrite (long_strtol e_per_page). discriminate.
    + exists (B "2"). split; [vm_compute; reflexivity|]. vm_compute. split; discriminate.
  - assert (K : forall k, BuildSpec.page_of e_answer None k -> k = 1 \/ k = 2).
    { intros k (s & Es & Hk). assert (X : e_answer None = Some (B "2")) by (vm_compute; reflexivity). rewrite X in Es. injection Es as <-.
      assert (Y : fst (strtol (B "2")) = 2%Z) by (vm_compute; reflexivity). rewrite Y in Hk. lia. }
    assert (Ex : s_tags (c_st s_site) = Some [B "x"]) by (vm_compute; reflexivity).
    assert (Kx : forall k, BuildSpec.page_of e_answer (Some (B "x")) k -> k = 1).
    { intros k (s & Es & Hk). assert (X : e_answer (Some (B "x")) = Some (B "1")) by (vm_compute; reflexivity). rewrite X in Es. injection Es as <-.
      assert (Y : fst (strtol (B "1")) = 1%Z) by (vm_compute; reflexivity). rewrite Y in Hk. lia. }
    intros rule' n' d' P Q. assert (Q0 : absolute s_site (B "_build/page/2/index.html") = B "/r/_build/page/2/index.html") by (vm_compute; reflexivity). rewrite Q0 in Q. destruct P as [n P1 P2 P3|n P1 P2 P3|tags t n P1 P2 P3 P4 P5|k n P1 P2 P3 P4|tags t k n P1 P2 P3 P4 P5 P6|posts i p f n P1 P2 P3 P4|tags t n P1 P2 P3 P4 P5|pages i p f n P1 P2 P3 P4|f P1 P2].
    + vm_compute in P3. injection P3 as <-. vm_compute in Q. discriminate Q.
    + vm_compute in P3. injection P3 as <-. vm_compute in Q. discriminate Q.
    + rewrite Ex in P2. injection P2 as <-. destruct P3 as [<-|[]]. vm_compute in P5. injection P5 as <-. vm_compute in Q. discriminate Q.
    + destruct (K k P3) as [-> | ->]; vm_compute in P4; injection P4 as <-; [vm_compute in Q; discriminate Q|]. split; reflexivity.
    + rewrite Ex in P2. injection P2 as <-. destruct P3 as [<-|[]]. apply Kx in P5. subst k. vm_compute in P6. injection P6 as <-. vm_compute in Q. discriminate Q.
    + assert (X : s_posts (c_st s_site) = Some [B "a"; B "b"]) by (vm_compute; reflexivity). rewrite X in P1. injection P1 as <-.
      destruct i as [|[|[|i]]]; try discriminate P2; injection P2 as <-; vm_compute in P4; injection P4 as <-; vm_compute in Q; discriminate Q.
    + rewrite Ex in P2. injection P2 as <-. destruct P3 as [<-|[]]. vm_compute in P5. injection P5 as <-. vm_compute in Q. discriminate Q.
    + assert (X : s_pages (c_st s_site) = Some [B "about"]) by (vm_compute; reflexivity). rewrite X in P1. injection P1 as <-.
      destruct i as [|[|i]]; try discriminate P2; injection P2 as <-; vm_compute in P4; injection P4 as <-; vm_compute in Q; discriminate Q.
    + destruct P2 as [<-|[]]. vm_compute in Q. discriminate Q.
Qed.
Notation e_now := (s_now_at 9).
Notation e_runs_blogc := (runs_blogc s_stat s_file Some (fun t => t) (fun _ _ _ => None) (fun _ => []) 400 400 (fun _ _ => true) (fun _ _ => true) (B "1") e_now).
Notation e_tells_blogc := (tells_blogc s_file Some (fun t => t) (fun _ _ _ => None) (fun _ => []) 400 400 (fun _ _ => true) (fun _ _ => true) (B "1") e_now).
(* two posts, one with the tag x, one post on a page: two pages of all, one of the tag *)
Example C92_example : settings_parse s_text = Ok (Datatypes.inl (c_st s_site)) /\ site_ok s_site /\ e_tells_blogc (B "blogc") s_command /\ posts_are s_file Some 400 s_site s_world e_posts /\ usual s_site /\
  long_int (look_str s_site (B "posts_per_page")) (Z.of_nat 1) /\ (forall tag, last_page_is e_posts 1 tag (e_answer tag)) /\
  e_answer None = Some (B "2") /\ e_answer (Some (B "x")) = Some (B "1") /\ e_answer (Some (B "y")) = None /\ length (pages 1 e_posts) = 2.
Proof.
  destruct (s_settings_ok 3) as (A1 & _). split; [exact A1|]. split; [exact (s_ok 3)|]. split; [exact e_tells|]. split; [exact e_posts_are|]. split; [exact e_usual|].
  split; [exact e_per_page|]. split; [exact e_last|]. split; [vm_compute; reflexivity|]. split; [vm_compute; reflexivity|]. split; vm_compute; reflexivity.
Qed.
Lemma e_order : (false = true <-> on (look s_site (B "posts_sort"))) /\ (false = true <-> asc (look s_site (B "html_order"))).
Proof. split; [rewrite <- P_Order.on_spec|rewrite <- P_Order.asc_spec]; vm_compute; split; intro X; exact X. Qed.
Lemma e_build : let (w, r) := all_exec s_stat s_command s_cp s_site s_world in r = Ok 0 /\ s_file w (B "/r/_build/page/2/index.html") = Some (B "The site [A #x]").
Proof. vm_compute. split; reflexivity. Qed.
Example C93_example : settings_parse s_text = Ok (Datatypes.inl (c_st s_site)) /\ utf8 s_text /\ tags_ok (c_st s_site) /\ P_BlogcCmd.word (e_blogc (c_exec s_site)) (B "blogc") /\
  nameable s_site e_answer /\ apart s_site e_answer /\ site_ok s_site /\ e_runs_blogc s_site (B "blogc") s_command /\ e_tells_blogc (B "blogc") s_command /\ copies s_stat s_file e_now s_site s_cp /\
  e_now s_world /\ posts_are s_file Some 400 s_site s_world e_posts /\ usual s_site /\ long_int (look_str s_site (B "posts_per_page")) (Z.of_nat 1) /\ (forall tag, last_page_is e_posts 1 tag (e_answer tag)) /\
  (false = true <-> on (look s_site (B "posts_sort"))) /\ (false = true <-> asc (look s_site (B "html_order"))) /\
  honest s_stat s_file Some (fun t => t) (fun _ _ _ => None) (fun _ => []) 400 (B "1") s_site e_answer s_world /\
  listing_of s_site (B "pagination") None 2 (B "_build/page/2/index.html") /\ absolute s_site (B "_build/page/2/index.html") = B "/r/_build/page/2/index.html" /\
  (exists d, product s_site e_answer (B "pagination") (B "_build/page/2/index.html") d) /\ alone s_site e_answer (B "pagination") (B "_build/page/2/index.html") /\
  let (w, r) := all_exec s_stat s_command s_cp s_site s_world in
  r = Ok 0 /\ s_file w (B "/r/_build/page/2/index.html") = Some (B "The site [A #x]").
Proof.
  destruct (s_settings_ok 3) as (A1 & A2 & A3 & A4). destruct e_order as [O1 O2]. destruct e_page_2 as (P1 & P2 & P3 & P4).
  split; [exact A1|]. split; [exact A2|]. split; [exact A3|]. split; [exact A4|]. split; [exact e_nameable|]. split; [exact e_apart|]. split; [exact (s_ok 3)|].
  split; [apply s_runs; reflexivity|]. split; [exact e_tells|]. split; [apply s_copies; reflexivity|]. split; [exact s_now_world|]. split; [exact e_posts_are|]. split; [exact e_usual|].
  split; [exact e_per_page|]. split; [exact e_last|]. split; [exact O1|]. split; [exact O2|]. split; [exact e_honest|]. split; [exact P1|]. split; [exact P2|]. split; [exact P3|]. split; [exact P4|].
  exact e_build.
Qed.

(* The claim when blogc cannot be asked: fails. blogc-make takes no answer for no posts,
   builds none of the pages and reports success. *)
Definition mute (w : sdisk) (cmd input : bytes) : sdisk * cmd_result :=
  if contains cmd (B "LAST_PAGE") then (w, CmdError) else s_command w cmd input.
Lemma mute_build : let (w, r) := all_exec s_stat mute s_cp s_site s_world in r = Ok 0 /\ s_file w (B "/r/_build/page/2/index.html") = None.
Proof. vm_compute. split; reflexivity. Qed.
Theorem C92_refuted : exists src c w ps command nm w',
  settings_parse src = Ok (Datatypes.inl (c_st c)) /\ utf8 src /\ site_ok c /\ e_runs_blogc c (B "blogc") command /\ copies s_stat s_file e_now c s_cp /\
  posts_are s_file Some 400 c w ps /\ usual c /\ long_int (look_str c (B "posts_per_page")) (Z.of_nat 1) /\
  listing_of c (B "pagination") None 2 nm /\ 2 <= length (pages 1 ps) /\
  all_exec s_stat command s_cp c w = (w', Ok 0) /\ s_file w' (absolute c nm) = None.
Proof.
  destruct (s_settings_ok 3) as (A1 & A2 & A3 & A4). destruct e_page_2 as (P1 & P2 & _). pose proof mute_build as M. destruct (all_exec s_stat mute s_cp s_site s_world) as [w' r] eqn:R. destruct M as [-> M].
  exists s_text, s_site, s_world, e_posts, mute, (B "_build/page/2/index.html"), w'.
  split; [exact A1|]. split; [exact A2|]. split; [exact (s_ok 3)|]. split.
  { intros x cmd input locale args Hn Hw. unfold mute. destruct (contains cmd (B "LAST_PAGE")).
    - split; [exact Hn|]. split; [apply later_refl|]. right. repeat split; discriminate.
    - assert (S : e_runs_blogc s_site (B "blogc") s_command) by (apply s_runs; reflexivity). exact (S x cmd input locale args Hn Hw). }
  split; [apply s_copies; reflexivity|]. split; [exact e_posts_are|]. split; [exact e_usual|]. split; [exact e_per_page|]. split; [exact P1|].
  split; [vm_compute; repeat constructor|]. split; [exact R|]. rewrite P2. exact M.
Qed.
Print Assumptions C92_refuted.
