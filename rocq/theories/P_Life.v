(* C91 for sites whose pages are counted by blogc: nothing is assumed about what blogc says
   about the last page. *)
From Verif Require Import Base Utils Utf8Proofs Trie TrieProofs ShSpec Datetime Source BlockSpec Loader LoaderSpec LoaderProofs Settings SettingsSpec FilenameSpec P_Settings Renderer BlogcCmd Rules RulesSpec BuildSpec Main MainSpec P_Main P_Build P_MainRun SiteSpec P_Site HistorySpec P_History PagesSpec P_Pages.
From Verif Require P_Loader P_Order P_Filename P_BlogcCmd SourceDoc BlockOut Content Filename.
From Coq Require Import ZArith.
#[local] Open Scope nat_scope.
#[local] Arguments B : simpl never.

Lemma load_failed ct mktime st fuel conf sort l1 f l2 ps e : P_Loader.posts ct fuel conf l1 ps -> source_parse_from_file ct fuel conf f = Ok (Failed e) ->
  forall acc n, exists e', load_go ct mktime st fuel conf sort (l1 ++ f :: l2) acc n = Ok (Failed e').
Proof.
  intros H Hf. unfold P_Loader.posts in H. induction H as [|x p l ps Hx _ IH]; intros acc n; cbn [app load_go].
  - rewrite Hf. eexists. reflexivity.
  - rewrite Hx. cbn [rbind]. cbv zeta. destruct sort; [|apply IH]. destruct (trie_lookup p (B "DATE")); [|eexists; reflexivity].
    destruct (convert_datetime _ _ _ _); [apply IH|eexists; reflexivity].
Qed.
Lemma long_same s a b : long_int s (Z.of_nat a) -> long_int s (Z.of_nat b) -> a = b.
Proof. intros H1 H2. apply long_strtol in H1, H2. rewrite H1 in H2. injection H2 as H2. lia. Qed.
Lemma loads_fun ct fuel conf l : forall ps qs, P_Loader.posts ct fuel conf l ps -> P_Loader.posts ct fuel conf l qs -> ps = qs.
Proof.
  unfold P_Loader.posts. intros ps qs H. revert qs. induction H as [|f p l ps Hf _ IH]; intros qs G; inversion G as [|? q ? qs' Gf G']; subst; [reflexivity|].
  rewrite Hf in Gf. injection Gf as ->. f_equal. apply IH. exact G'.
Qed.
Lemma loads_in ct fuel conf l ps f : P_Loader.posts ct fuel conf l ps -> In f l -> exists p, source_parse_from_file ct fuel conf f = Ok (Loaded p).
Proof. unfold P_Loader.posts. induction 1 as [|x p l ps Hx _ IH]; [intros []|]. intros [<-|Hf]; [eauto|apply IH; exact Hf]. Qed.

Section Life.
Variable W : Type.
Variable stat : W -> bytes -> option (Z * Z).
Variable file : W -> bytes -> option bytes.
Variable text : bytes -> option bytes.
Variable mktime : tm -> tm.
Variable strftime : option bytes -> bytes -> tm -> option bytes.
Variable funcs : W -> list (bytes * (vars -> vars)).
Variable sfuel rfuel : nat.
Variable mkdir fopen : W -> bytes -> bool.
Variable version : bytes.
Variable command : W -> bytes -> bytes -> W * cmd_result.
Variable cp : W -> fctx -> fctx -> W * nat.
Notation posts_are := (posts_are file text sfuel).
Notation broken := (broken file text sfuel).
Notation counted := (counted file text sfuel).
Notation edited := (edited stat file).
Notation right := (right file text mktime strftime funcs sfuel version).

Lemma asked_broken now src bin c w n lv tag : settings_parse src = Ok (Datatypes.inl (c_st c)) -> utf8 src -> tags_ok (c_st c) -> P_BlogcCmd.word (e_blogc (c_exec c)) bin ->
  (forall f, In (Some f) (c_posts c) -> P_BlogcCmd.line_path (f_path f)) -> ~ In None (c_posts c) ->
  tells_blogc file text mktime strftime funcs sfuel rfuel mkdir fopen version now bin command -> now w -> broken c w -> usual c -> long_int (look_str c (B "posts_per_page")) (Z.of_nat n) -> 0 < n ->
  named lv -> in_trie lv (B "FILTER_TAG") = tag -> (forall k, no_nul k -> beq (B "FILTER_TAG") k = false -> in_trie lv k = None) ->
  ask_blogc command c (Some (posts_pagination c trie_new (B "posts_per_page"))) lv (B "LAST_PAGE") w = (w, Ok None).
Proof.
  intros E U T Hb Hp Hn Tell Hw Br [Ut Ul Us Ur Ug] Hl Hpos Nl Ht Hlv. unfold ask_blogc. rewrite (paths_all Hn).
  destruct (exec_get_variable _ _ _ _ _ _ _) as [cmd input] eqn:Eq.
  set (gv := posts_pagination c trie_new (B "posts_per_page")) in *.
  assert (Mg : means gv [(B "FILTER_PAGE", B "1"); (B "FILTER_PER_PAGE", look_str c (B "posts_per_page"))]).
  { unfold gv, posts_pagination. rewrite (long_strtol Hl). cbn [fst]. destruct (Z.leb_spec 0 (Z.of_nat n)); [|lia]. apply page_table. }
  assert (Ng : named (Some gv)).
  { eapply means_named; [exact Mg|]. constructor; [apply fine_ascii; reflexivity|]. constructor; [|constructor]. apply (fine_look E U); reflexivity. }
  assert (Vp : Forall BlogcCmdSpec.plain (B "LAST_PAGE")) by (apply P_BlogcCmd.plain_all; reflexivity).
  assert (Sl : Forall P_BlogcCmd.line_path (map f_path (somes (c_posts c)))).
  { apply Forall_forall. intros x Hx. apply in_map_iff in Hx. destruct Hx as (f & <- & Hf). apply Hp. apply somes_in. exact Hf. }
  destruct (@C65_variable_partial (contents file text w) mktime (strftime (look c (B "locale"))) (funcs w) sfuel rfuel (mkdir w) (fopen w) (fun _ t => t) version
    src (c_st c) bin (c_exec c) (Some gv) lv (B "LAST_PAGE") true (map f_path (somes (c_posts c))) false E eq_refl U T Hb Ng Nl Vp ltac:(discriminate) Sl)
    as (env & args & o & H1 & H2 & H3 & (H4 & H4' & H4c) & H5 & H6 & H7 & H8).
  fold gv in H1, H3. rewrite Eq in H1, H3. cbn [fst snd] in H1, H3. cbv iota in H3.
  assert (C0 : forall k, no_nulb k = true -> beq (B "MAKE_ENV") k = false -> beq (B "MAKE_ENV_DEV") k = false -> beq (B "MAKE_TAGS") k = false -> beq (B "BLOGC_VERSION") k = false ->
    trie_lookup (o_config o) k = or (in_trie lv k) (or (in_trie (Some gv) k) (trie_lookup (s_global (c_st c)) k))).
  { intros k K0 K1 K2 K3 K4. rewrite (H4c k (proj1 (no_nulb_spec k) K0)). apply effective_plain; assumption. }
  assert (Gk : forall k, no_nulb k = true -> in_trie (Some gv) k = assoc k [(B "FILTER_PAGE", B "1"); (B "FILTER_PER_PAGE", look_str c (B "posts_per_page"))]).
  { intros k K0. apply (proj2 Mg). apply no_nulb_spec. exact K0. }
  assert (Lk : forall k, no_nulb k = true -> beq (B "FILTER_TAG") k = false -> in_trie lv k = None) by (intros k K0; apply Hlv; apply no_nulb_spec; exact K0).
  assert (C5 : trie_lookup (o_config o) (B "FILTER_SORT") = trie_lookup (s_global (c_st c)) (B "FILTER_SORT")).
  { rewrite C0 by reflexivity. rewrite (Lk (B "FILTER_SORT")) by reflexivity. rewrite Gk by reflexivity. reflexivity. }
  assert (C6 : trie_lookup (o_config o) (B "TOCTREE_MAXDEPTH") = trie_lookup (s_global (c_st c)) (B "TOCTREE_MAXDEPTH")).
  { rewrite C0 by reflexivity. rewrite (Lk (B "TOCTREE_MAXDEPTH")) by reflexivity. rewrite Gk by reflexivity. reflexivity. }
  clearbody gv.
  assert (Us' : str_to_bool (trie_lookup (o_config o) (B "FILTER_SORT")) = false).
  { apply not_true_is_false. rewrite enabled_spec. intro X. apply Us. unfold enabled in *. rewrite <- C5. exact X. }
  assert (Pc : forall l ps, P_Loader.posts (contents file text w) sfuel (s_global (c_st c)) l ps -> P_Loader.posts (contents file text w) sfuel (o_config o) l ps).
  { clear - C6. intros l ps H. unfold P_Loader.posts in *. induction H as [|f p fs qs X _ IH]; constructor; [|exact IH]. rewrite <- X. apply from_file_conf. exact C6. }
  assert (Gf : exists e, gather (contents file text w) mktime (strftime (look c (B "locale"))) sfuel (o_config o) (map f_path (somes (c_posts c))) = Ok (Failed e)).
  { destruct Br as [(l1 & f & l2 & ps & e & -> & B1 & B2)|(ps & B1 & B2)].
    - unfold gather. rewrite <- (from_file_conf (contents file text w) sfuel f C6) in B2.
      destruct (@load_failed (contents file text w) mktime (strftime (look c (B "locale"))) sfuel (o_config o) (str_to_bool (trie_lookup (o_config o) (B "FILTER_SORT"))) l1 f l2 ps e (Pc _ _ B1) B2 [] 0) as (e' & X).
      rewrite X. eexists. reflexivity.
    - apply Pc in B1. unfold gather. rewrite Us'. rewrite (load_plain mktime (strftime (look c (B "locale"))) B1). cbn [app rbind Nat.add]. rewrite ndated_uniform in B2.
      pose proof (ndated_le ps) as Le. rewrite (Forall2_length B1). replace (Nat.ltb 0 (ndated ps) && Nat.ltb (ndated ps) (length ps)) with true; [eexists; reflexivity|].
      symmetry. apply andb_true_iff. rewrite !Nat.ltb_lt. lia. }
  destruct Gf as (e & Gf).
  unfold compile in H3. rewrite H5 in H3. cbn [negb andb] in H3. unfold source_parse_from_files in H3. rewrite Gf in H3. cbn [rbind] in H3. rewrite H2 in H1.
  destruct (Tell w cmd input (look c (B "locale")) args _ _ Hw H1 H3) as (err & R).
  { intros x [<-|[]]. reflexivity. }
  rewrite R. reflexivity.
Qed.

(* the same posts, of the same settings *)
Definition same_posts (c : ctx) (w : W) (c' : ctx) (x : W) : Prop :=
  c_st c' = c_st c /\ map f_path (somes (c_posts c')) = map f_path (somes (c_posts c)) /\ forall f, In (Some f) (c_posts c) -> file x (f_path f) = file w (f_path f).
Lemma posts_contents c w c' x f : same_posts c w c' x -> In f (map f_path (somes (c_posts c))) -> contents file text w f = contents file text x f.
Proof.
  intros (_ & _ & H) Hf. apply in_map_iff in Hf. destruct Hf as (g & <- & Hg). unfold contents. rewrite (H g); [reflexivity|]. apply in_somes. exact Hg.
Qed.
Lemma posts_are_kept c w c' x ps : same_posts c w c' x -> posts_are c w ps -> posts_are c' x ps.
Proof.
  intros H [Pf Pu Pn]. constructor; [|exact Pu|exact Pn]. pose proof H as (-> & -> & _). revert Pf. apply loads_same. intros f Hf. eapply posts_contents; eassumption.
Qed.
Lemma broken_kept c w c' x : same_posts c w c' x -> broken c w -> broken c' x.
Proof.
  intros H B. pose proof H as (H1 & H2 & _). unfold PagesSpec.broken. rewrite H1, H2. destruct B as [(l1 & f & l2 & ps & e & B0 & B1 & B2)|(ps & B1 & B2)].
  - left. exists l1, f, l2, ps, e. split; [exact B0|]. split.
    + revert B1. apply loads_same. intros g Hg. eapply posts_contents; [exact H|]. rewrite B0. apply in_app_iff. left. exact Hg.
    + rewrite <- B2. symmetry. apply from_file_agree. eapply posts_contents; [exact H|]. rewrite B0. apply in_app_iff. right. left. reflexivity.
  - right. exists ps. split; [|exact B2]. revert B1. apply loads_same. intros g Hg. eapply posts_contents; eassumption.
Qed.
Lemma not_both c w ps : posts_are c w ps -> broken c w -> False.
Proof.
  intros [Pf Pu Pn] [(l1 & f & l2 & qs & e & B0 & B1 & B2)|(qs & B1 & B2)].
  - destruct (@loads_in _ _ _ _ _ f Pf) as (p & X); [rewrite B0; apply in_app_iff; right; left; reflexivity|]. congruence.
  - rewrite (loads_fun B1 Pf) in B2. contradiction.
Qed.
Lemma counted_kept c answer w x : same_posts c w c x -> counted c answer w -> counted c answer x.
Proof.
  intros H (U & n & L & P & [(ps & A & K)|[A K]]); (split; [exact U|]; exists n; split; [exact L|]; split; [exact P|]).
  - left. exists ps. split; [eapply posts_are_kept; eassumption|exact K].
  - right. split; [eapply broken_kept; eassumption|exact K].
Qed.
Lemma counted_fun c answer w c' answer' w' : counted c answer w -> counted c' answer' w' -> same_posts c w c' w' -> forall tag, answer' tag = answer tag.
Proof.
  intros (_ & n & L & P & K) (_ & n' & L' & P' & K') H tag. pose proof H as (H1 & _ & _). unfold look_str, look in L, L'. rewrite H1 in L'. assert (n' = n) as -> by (eapply long_same; eassumption).
  destruct K as [(ps & A & K)|[A K]]; destruct K' as [(ps' & A' & K')|[A' K']].
  - assert (ps' = ps) as ->. { apply (posts_are_kept H) in A. destruct A as [A _ _], A' as [A' _ _]. exact (loads_fun A' A). }
    rewrite (proj1 (last_page_fun ps tag _ P) (K tag)), (proj1 (last_page_fun ps tag _ P) (K' tag)). reflexivity.
  - exfalso. exact (not_both (posts_are_kept H A) A').
  - exfalso. exact (not_both A' (broken_kept H A)).
  - rewrite K, K'. reflexivity.
Qed.
Lemma inputs_posts c w x : same_inputs file c w x -> same_posts c w c x.
Proof.
  intro H. split; [reflexivity|]. split; [reflexivity|]. intros f Hf. apply H. apply source_input. apply in_app_iff. left. exact Hf.
Qed.
Hypothesis no_func : forall w, Forall (fun f => fst f <> B "LAST_PAGE") (funcs w).
Lemma counted_answers now src bin c answer w : settings_parse src = Ok (Datatypes.inl (c_st c)) -> utf8 src -> tags_ok (c_st c) -> P_BlogcCmd.word (e_blogc (c_exec c)) bin ->
  (forall f, In (Some f) (c_posts c) -> P_BlogcCmd.line_path (f_path f)) -> site_ok c -> tells_blogc file text mktime strftime funcs sfuel rfuel mkdir fopen version now bin command ->
  counted c answer w -> answers command (meanwhile file now c w) c answer.
Proof.
  intros E U T Hb Hp Sk Tell (Hu & n & L & P & [(ps & A & K)|[A K]]); [eapply C92_answers; eassumption|]. destruct Sk as (_ & Hn & _).
  split; [|split].
  - intros x [Hx Nx]. rewrite K. eapply asked_broken; try eassumption; [exact (broken_kept (inputs_posts Hx) A)|exact I|reflexivity|reflexivity].
  - intros tags t x [Hx Nx] Et Ht. rewrite K.
    assert (M : means (trie_insert trie_new (B "FILTER_TAG") t) [(B "FILTER_TAG", t)]) by apply tag_var.
    eapply asked_broken; try eassumption; [exact (broken_kept (inputs_posts Hx) A)|eapply means_named; [exact M|exact (fine_tag E U Et Ht)]|reflexivity|].
    intros k Hk Hd. cbn [in_trie]. rewrite (proj2 M k Hk). cbn [assoc]. rewrite Hd. reflexivity.
  - intros t s Es. rewrite K in Es. discriminate.
Qed.

(* what is assumed for a run: that of C89, and that blogc can be asked *)
Definition can_run (c : ctx) (answer : option bytes -> option bytes) (w : W) : Prop :=
  exists now src bin, settings_parse src = Ok (Datatypes.inl (c_st c)) /\ utf8 src /\ tags_ok (c_st c) /\ P_BlogcCmd.word (e_blogc (c_exec c)) bin /\
    nameable c answer /\ apart c answer /\ site_ok c /\
    runs_blogc stat file text mktime strftime funcs sfuel rfuel mkdir fopen version now c bin command /\
    tells_blogc file text mktime strftime funcs sfuel rfuel mkdir fopen version now bin command /\ copies stat file now c cp /\ now w.
(* a site that is edited and built again and again; the posts may be broken in between *)
Inductive life : ctx -> (option bytes -> option bytes) -> W -> Prop :=
| Li_new c answer w : counted c answer w -> (forall rule n d, product c answer rule n d -> stat w (absolute c n) = None) -> life c answer w
| Li_run c answer w w' r : life c answer w -> can_run c answer w -> all_exec stat command cp c w = (w', r) -> life c answer w'
| Li_edit c answer w c' answer' w' : life c answer w -> distinct c answer -> edited c answer w c' answer' w' -> counted c' answer' w' -> life c' answer' w'.

Lemma can_run_fit c answer w : can_run c answer w -> counted c answer w ->
  fit stat file text mktime strftime funcs sfuel rfuel mkdir fopen version command cp c answer w.
Proof.
  intros (now & src & bin & F1 & F2 & F3 & F4 & F5 & F6 & F7 & F8 & F9 & F10 & F11) C. exists now, src, bin.
  split; [exact F1|]. split; [exact F2|]. split; [exact F3|]. split; [exact F4|]. split; [exact F5|]. split; [exact F6|]. split; [exact F7|]. split; [exact F8|]. split; [exact F10|].
  split; [|exact F11]. eapply counted_answers; try eassumption. intros f Hf. apply (na_sources F5). apply in_app_iff. left. exact Hf.
Qed.
Lemma life_history c answer w : life c answer w ->
  history stat file text mktime strftime funcs sfuel rfuel mkdir fopen version command cp c answer w /\ counted c answer w.
Proof.
  induction 1 as [c answer w C N|c answer w w' r _ [IH C] F R|c answer w c' answer' w' _ [IH C] D E C'].
  - split; [apply H_new; exact N|exact C].
  - pose proof (can_run_fit F C) as G. split; [eapply H_run; eassumption|]. apply history_honest in IH.
    destruct G as (now & src & bin & F1 & F2 & F3 & F4 & F5 & F6 & F7 & F8 & F9 & F10 & F11).
    destruct (C89_partial F1 F2 F3 F4 F5 F6 F7 F8 F9 F10 F11 IH R) as (_ & A & _). eapply counted_kept; [|exact C].
    apply inputs_posts. exact A.
  - split; [|exact C']. eapply H_edit; [exact IH|exact D| |exact E]. intros S1 S2 S3. eapply counted_fun; [exact C|exact C'|].
    split; [exact S1|]. split; [|exact S3]. clear - S2. revert S2. generalize (c_posts c). induction (c_posts c') as [|[x|] l IH]; intros [|[y|] m]; cbn; try discriminate; intro H; try (injection H as H1 H); try injection H as H; try reflexivity.
    + rewrite H1. f_equal. apply IH. exact H.
    + apply IH. exact H.
Qed.

(* C91, nothing assumed about what blogc says: after any history of edits and runs, a run that
   succeeds leaves every file up to date and right, with as many pages in each listing as the
   posts fill. *)
Theorem C91_life_partial : forall c answer w w', life c answer w -> can_run c answer w -> all_exec stat command cp c w = (w', Ok 0) ->
  counted c answer w' /\ (forall f, In f (inputs c) -> file w' (f_path f) = file w (f_path f)) /\
  forall rule n d, product c answer rule n d -> up_to_date stat w' (absolute c n) d /\ right c answer w' (absolute c n).
Proof.
  intros c answer w w' H F R. pose proof (life_history H) as [Hh C]. split; [exact (proj2 (life_history (Li_run H F R)))|].
  eapply C91_history_partial; [exact Hh|eapply can_run_fit; eassumption|exact R].
Qed.
End Life.
Print Assumptions C91_life_partial.

(* ---- the site of C89_example: built; its first post gets a syntax error, which the next run
   reports; the post is repaired, and the site built ---- *)
Definition l_put (t : Z) (text : bytes) (w : sdisk) : sdisk := ((B "/r/a.txt", (t, text)) :: fst w, Z.max (snd w) t + 1)%Z.
Definition l_bad : sdisk := l_put 100 (B "TITLE A" ++ [LF] ++ B "-----" ++ [LF] ++ B "New." ++ [LF]) h_built.
Definition l_failed : sdisk := fst (all_exec s_stat s_command s_cp (s_site_at 100) l_bad).
Definition l_good : sdisk := l_put 300 (B "TITLE: A" ++ [LF] ++ B "TAGS: x" ++ [LF] ++ B "-----" ++ [LF] ++ B "New." ++ [LF]) l_failed.
Definition l_none (tag : option bytes) : option bytes := None.
Definition l_post (f : bytes) : trie bytes :=
  match source_parse_from_file (contents s_file Some l_good) 400 (s_global s_settings_of) f with Ok (Loaded p) => p | _ => trie_new end.
Definition l_posts : list (trie bytes) := [l_post (B "/r/a.txt"); l_post (B "/r/b.txt")].
Definition l_answer (tag : option bytes) : option bytes := last_of_posts l_posts 1 tag.
Notation l_life := (life s_stat s_file Some (fun t => t) (fun _ _ _ => None) (fun _ => []) 400 400 (fun _ _ => true) (fun _ _ => true) (B "1") s_command s_cp).
Notation l_can_run := (can_run s_stat s_file Some (fun t => t) (fun _ _ _ => None) (fun _ => []) 400 400 (fun _ _ => true) (fun _ _ => true) (B "1") s_command s_cp).

(* an answer that says no more than that of C89's example *)
Definition modest (a : option bytes -> option bytes) : Prop :=
  (a None = None \/ a None = s_answer None) /\ (a (Some (B "x")) = None \/ a (Some (B "x")) = s_answer (Some (B "x"))).
Lemma l_tags t : s_tags (c_st (s_site_at t)) = Some [B "x"].
Proof. assert (X : s_tags s_settings_of = Some [B "x"]) by (vm_compute; reflexivity). exact X. Qed.
Lemma modest_product a rule n d : modest a -> product s_site a rule n d -> product s_site s_answer rule n d.
Proof.
  intros [M1 M2] P.
  assert (X1 : forall k, BuildSpec.page_of a None k -> BuildSpec.page_of s_answer None k).
  { intros k (s & E & H). destruct M1 as [M|M]; rewrite M in E; [discriminate|]. exists s. auto. }
  assert (X2 : forall k, BuildSpec.page_of a (Some (B "x")) k -> BuildSpec.page_of s_answer (Some (B "x")) k).
  { intros k (s & E & H). destruct M2 as [M|M]; rewrite M in E; [discriminate|]. exists s. auto. }
  destruct P as [n H1 H2 H3|n H1 H2 H3|tags t n H1 H2 H3 H4 H5|k n H1 H2 H3 H4|tags t k n H1 H2 H3 H4 H5 H6|posts i p f n H1 H2 H3 H4|tags t n H1 H2 H3 H4 H5|pages i p f n H1 H2 H3 H4|f H1 H2].
  - apply P_index; assumption.
  - apply P_atom; assumption.
  - eapply P_atom_tag; eassumption.
  - apply P_pagination with (k := k); auto.
  - assert (H2' : Some tags = Some [B "x"]) by (rewrite <- H2; exact (l_tags 3)). injection H2' as ->. destruct H3 as [<-|[]]. eapply P_pagination_tag; try eassumption; [left; reflexivity|]. apply X2. assumption.
  - eapply P_post; eassumption.
  - eapply P_tag; eassumption.
  - eapply P_page; eassumption.
  - apply P_copy; assumption.
Qed.
Lemma l_product t a rule n d : modest a -> product (s_site_at t) a rule n d -> exists d0, product s_site s_answer rule n d0 /\ d = map (h_again t) d0.
Proof.
  intros M P. rewrite h_reread in P. destruct (product_reread (h_alike t) P) as (d0 & P0 & ->). exists d0. split; [|reflexivity]. eapply modest_product; eassumption.
Qed.
Lemma l_nameable t a : modest a -> nameable (s_site_at t) a.
Proof.
  intro M. destruct s_world_ok as (_ & [N1 N2 N3 N4 N5 N6] & _). constructor; [exact N1|exact N2|exact N3| | |].
  - intros f [E|[E|[E|[]]]]; injection E as <-.
    + exact (N4 _ (or_introl eq_refl)).
    + exact (N4 _ (or_intror (or_introl eq_refl))).
    + exact (N4 _ (or_intror (or_intror (or_introl eq_refl)))).
  - intros f s [E|[E|[E|[]]]]; injection E as <-.
    + exact (N5 _ s (or_introl eq_refl)).
    + exact (N5 _ s (or_intror (or_introl eq_refl))).
    + exact (N5 _ s (or_intror (or_intror (or_introl eq_refl)))).
  - intros rule n d P. destruct (l_product M P) as (d0 & P0 & _). exact (N6 _ _ _ P0).
Qed.
Lemma l_apart t a : modest a -> apart (s_site_at t) a.
Proof.
  intro M. destruct s_world_ok as (_ & _ & [A1 A2] & _). constructor.
  - intros rule n d f P Hf. destruct (l_product M P) as (d0 & P0 & _). 
    assert (X : exists f0, In f0 (inputs s_site) /\ f_path f = f_path f0).
    { change (inputs (s_site_at t)) with (map (h_again t) (inputs s_site)) in Hf. apply in_map_iff in Hf. destruct Hf as (f0 & <- & Hf). exists f0. split; [exact Hf|apply h_alike]. }
    destruct X as (f0 & Hf0 & ->). exact (A1 _ _ _ _ P0 Hf0).
  - intros rule n d rule' n' d' P P'. destruct (l_product M P) as (d0 & P0 & _). destruct (l_product M P') as (d1 & P1 & _). exact (A2 _ _ _ _ _ _ P0 P1).
Qed.
Lemma l_distinct t a : modest a -> distinct (s_site_at t) a.
Proof.
  intros M rule n d rule' n' d' P P' E. destruct (l_product M P) as (d0 & P0 & ->). destruct (l_product M P') as (d1 & P1 & ->).
  destruct (h_distinct P0 P1 E) as (-> & -> & ->). auto.
Qed.
Lemma l_run t a w : modest a -> (3 <= t)%Z -> s_now_at (Z.max 9 (t + 1)) w -> l_can_run (s_site_at t) a w.
Proof.
  intros M Ht Hn. destruct (s_settings_ok t) as (A1 & A2 & A3 & A4). exists (s_now_at (Z.max 9 (t + 1))), s_text, (B "blogc").
  split; [exact A1|]. split; [exact A2|]. split; [exact A3|]. split; [exact A4|]. split; [exact (l_nameable t M)|]. split; [exact (l_apart t M)|]. split; [exact (s_ok t)|].
  split; [apply s_runs; lia|]. split; [apply e_tells_at|]. split; [apply s_copies; lia|]. exact Hn.
Qed.
Lemma l_now t w : forallb (fun x => Z.leb (fst (snd x)) (snd w)) (fst w) && Z.leb t (snd w) = true -> s_now_at t w.
Proof.
  intro X. apply andb_true_iff in X. destruct X as [X1 X2]. split; [|apply Z.leb_le; exact X2]. apply Forall_forall. intros x Hx. rewrite forallb_forall in X1. apply Z.leb_le, X1. exact Hx.
Qed.
Lemma usual_of c c' : c_st c' = c_st c -> usual c -> usual c'.
Proof. intros E [U1 U2 U3 U4 U5]. constructor; rewrite E; assumption. Qed.
Lemma l_st t : c_st (s_site_at t) = s_settings_of.
Proof. reflexivity. Qed.
Lemma l_usual t : usual (s_site_at t).
Proof. apply (@usual_of s_site); [|exact e_usual]. unfold s_site. rewrite !l_st. reflexivity. Qed.
Lemma l_per_page t : long_int (look_str (s_site_at t) (B "posts_per_page")) (Z.of_nat 1).
Proof. assert (X : look_str (s_site_at t) (B "posts_per_page") = B "1") by (unfold look_str, look; rewrite l_st; vm_compute; reflexivity). rewrite X. exact one_long. Qed.
(* an edit of the post: what is not the post is as it was *)
Lemma l_edited t t' a a' w text : modest a' -> (3 <= t)%Z -> forallb (fun x => Z.ltb (fst (snd x)) t') (fst w) = true -> (t < t')%Z ->
  edited s_stat s_file (s_site_at t) a w (s_site_at t') a' (l_put t' text w).
Proof.
  intros M Ht Hw Htt.
  assert (Hb : forall p x, s_stat w p = Some x -> (fst x < t')%Z).
  { intros p x E. unfold s_stat in E. destruct (s_find w p) as [y|] eqn:F; [|discriminate]. injection E as <-. rewrite forallb_forall in Hw.
    unfold s_find in F. destruct (find _ (fst w)) as [z|] eqn:G; [|discriminate]. injection F as <-. apply find_some in G. specialize (Hw z (proj1 G)). apply Z.ltb_lt in Hw. exact Hw. }
  assert (Ho : forall p, p <> B "/r/a.txt" -> s_file (l_put t' text w) p = s_file w p /\ s_stat (l_put t' text w) p = s_stat w p).
  { intros p Hp. unfold s_file, s_stat, s_find, l_put. cbn [fst snd find]. replace (beq (B "/r/a.txt") p) with false; [split; reflexivity|]. symmetry. apply beq_neq. congruence. }
  apply Ed_sources with (g := h_again t') (feed := c_main s_site).
  - reflexivity.
  - apply h_alike.
  - assert (X : Forall (fun f => (h_again t' f = f /\ f_path f <> B "/r/a.txt") \/ f_time (h_again t' f) = (t', 0)%Z) (sources (s_site_at t))).
    { repeat (constructor; [first [left; split; [reflexivity|discriminate]|right; reflexivity]|]). constructor. }
    intros f Hf. rewrite Forall_forall in X. destruct (X f Hf) as [[X1 X2]|X1].
    + left. split; [apply Ho; exact X2|]. rewrite X1. apply not_later_refl.
    + right. intros rule n d x _ E. rewrite X1. pose proof (Hb _ _ E). unfold not_later. cbn [fst snd]. lia.
  - discriminate.
  - intros rule n d P. right. destruct (l_product M P) as (d0 & P0 & _).
    assert (Np : absolute (s_site_at t') n <> B "/r/a.txt").
    { destruct s_world_ok as (_ & _ & [A1 _] & _). intro X. refine (A1 _ _ _ (s_in (B "a.txt") 3%Z (Some (B "a"))) P0 _ X). do 3 right. left. reflexivity. }
    destruct (Ho _ Np) as [H1 H2]. split; [exact H2|exact H1].
Qed.
Lemma l_counted1 : counted s_file Some 400 s_site e_answer s_world.
Proof. split; [exact e_usual|]. exists 1. split; [exact e_per_page|]. split; [lia|]. left. exists e_posts. split; [exact e_posts_are|exact e_last]. Qed.
Lemma l_counted2 : counted s_file Some 400 (s_site_at 100) l_none l_bad.
Proof.
  split; [exact (l_usual 100)|]. exists 1. split; [exact (l_per_page 100)|]. split; [lia|]. right. split; [|reflexivity].
  left. assert (X : exists e, source_parse_from_file (contents s_file Some l_bad) 400 (s_global (c_st (s_site_at 100))) (B "/r/a.txt") = Ok (Failed e)) by (vm_compute; eexists; reflexivity).
  destruct X as (e & X). exists [], (B "/r/a.txt"), [B "/r/b.txt"], [], e. split; [reflexivity|]. split; [constructor|exact X].
Qed.
Lemma l_counted3 : counted s_file Some 400 (s_site_at 300) l_answer l_good.
Proof.
  split; [exact (l_usual 300)|]. exists 1. split; [exact (l_per_page 300)|]. split; [lia|]. left. exists l_posts. split.
  - constructor.
    + unfold P_Loader.posts. assert (X : map f_path (somes (c_posts (s_site_at 300))) = [B "/r/a.txt"; B "/r/b.txt"]) by reflexivity. rewrite X.
      constructor; [vm_compute; reflexivity|]. constructor; [vm_compute; reflexivity|constructor].
    + right. constructor; [intro X; apply X; vm_compute; reflexivity|]. constructor; [intro X; apply X; vm_compute; reflexivity|constructor].
    + vm_compute. reflexivity.
  - intro tag. apply last_page_fun; [lia|reflexivity].
Qed.
Lemma m_e : modest e_answer.
Proof. split; right; vm_compute; reflexivity. Qed.
Lemma m_none : modest l_none.
Proof. split; left; reflexivity. Qed.
Lemma m_l : modest l_answer.
Proof. split; right; vm_compute; reflexivity. Qed.
Lemma l_life1 : l_life s_site e_answer h_built.
Proof.
  destruct (all_exec s_stat s_command s_cp s_site s_world) as [w r] eqn:E. replace h_built with w by (unfold h_built; rewrite E; reflexivity).
  apply Li_run with (w := s_world) (r := r); [|apply l_run; [exact m_e|lia|exact s_now_world]|exact E].
  apply Li_new; [exact l_counted1|]. intros rule n d P. apply (modest_product m_e) in P. apply h_product in P.
  assert (Y : forallb (fun x => match s_stat s_world (absolute s_site (snd (fst x))) with None => true | Some _ => false end) h_products = true) by (vm_compute; reflexivity).
  rewrite forallb_forall in Y. specialize (Y _ P). cbn [fst snd] in Y. destruct (s_stat s_world (absolute s_site n)); [discriminate|reflexivity].
Qed.
Lemma l_life2 : l_life (s_site_at 100) l_none l_bad.
Proof.
  apply Li_edit with (c := s_site) (answer := e_answer) (w := h_built); [exact l_life1|exact (@l_distinct 3 _ m_e)| |exact l_counted2].
  apply l_edited; [exact m_none|lia|vm_compute; reflexivity|lia].
Qed.
Lemma l_life3 : l_life (s_site_at 100) l_none l_failed.
Proof.
  destruct (all_exec s_stat s_command s_cp (s_site_at 100) l_bad) as [w r] eqn:E. replace l_failed with w by (unfold l_failed; rewrite E; reflexivity).
  apply Li_run with (w := l_bad) (r := r); [exact l_life2| |exact E]. apply l_run; [exact m_none|lia|apply l_now; vm_compute; reflexivity].
Qed.
Lemma l_life4 : l_life (s_site_at 300) l_answer l_good.
Proof.
  apply Li_edit with (c := s_site_at 100) (answer := l_none) (w := l_failed); [exact l_life3|exact (@l_distinct 100 _ m_none)| |exact l_counted3].
  apply l_edited; [exact m_l|lia|vm_compute; reflexivity|lia].
Qed.
Example C91_life_example : l_life (s_site_at 300) l_answer l_good /\ l_can_run (s_site_at 300) l_answer l_good.
Proof. split; [exact l_life4|]. apply l_run; [exact m_l|lia|apply l_now; vm_compute; reflexivity]. Qed.
Example C91_life_runs :
  snd (all_exec s_stat s_command s_cp (s_site_at 100) l_bad) = Ok 1 /\
  s_file l_failed (B "/r/_build/post/a/index.html") = Some (B "The site: A <p>Hi <em>a</em>.</p>" ++ [LF]) /\
  let (w, r) := all_exec s_stat s_command s_cp (s_site_at 300) l_good in
  r = Ok 0 /\ s_file w (B "/r/_build/post/a/index.html") = Some (B "The site: A <p>New.</p>" ++ [LF]).
Proof. split; [vm_compute; reflexivity|]. split; [vm_compute; reflexivity|]. vm_compute. split; reflexivity. Qed.
