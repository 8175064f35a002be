(* C91: a site that is edited and built again and again. *)
From Verif Require Import Base Utf8Proofs Trie TrieProofs ShSpec Datetime Source Settings Filename Renderer BlogcCmd Rules RulesSpec BuildSpec Main MainSpec P_Main P_Build P_MainRun SiteSpec P_Site HistorySpec.
From Verif Require P_BlogcCmd Content.
From Coq Require Import ZArith.
#[local] Open Scope nat_scope.
#[local] Arguments B : simpl never.

(* ---- the context read again ---- *)
Section Reread.
Variables (g : fctx -> fctx) (feed : fctx) (c : ctx).
Hypothesis same : forall f, alike f (g f).
Notation c' := (reread g feed c).
Lemma somes_map (l : list (option fctx)) : somes (map (option_map g) l) = map g (somes l).
Proof. unfold somes. induction l as [|[x|] l IH]; cbn; [reflexivity| |]; rewrite IH; reflexivity. Qed.
Lemma listing_reread : listing_deps c' = map g (listing_deps c).
Proof. unfold listing_deps. cbn [c_settings c_main c_entry c_posts reread]. rewrite !map_app, <- !somes_map. reflexivity. Qed.
Lemma feed_reread : feed_deps c' = map g (feed_deps c).
Proof. unfold feed_deps. cbn [c_settings c_atom c_atom_tmp c_posts reread]. rewrite !map_app, <- !somes_map. destruct (c_atom_tmp c); reflexivity. Qed.
Lemma nth_reread (l : list (option fctx)) i f' : nth_error (map (option_map g) l) i = Some (Some f') -> exists f, nth_error l i = Some (Some f) /\ f' = g f.
Proof.
  intro H. rewrite nth_error_map in H. destruct (nth_error l i) as [[f|]|]; try discriminate. cbn in H. injection H as <-. eauto.
Qed.
Lemma product_reread answer rule n d' : product c' answer rule n d' -> exists d, product c answer rule n d /\ d' = map g d.
Proof.
  intro P. destruct P as [n H1 H2 H3|n H1 H2 H3|tags t n H1 H2 H3 H4 H5|k n H1 H2 H3 H4|tags t k n H1 H2 H3 H4 H5 H6|posts i p f n H1 H2 H3 H4|tags t n H1 H2 H3 H4 H5|pages i p f n H1 H2 H3 H4|f H1 H2];
    rewrite ?listing_reread, ?feed_reread.
  - eexists. split; [|reflexivity]. apply P_index; assumption.
  - eexists. split; [|reflexivity]. apply P_atom; assumption.
  - eexists. split; [|reflexivity]. eapply P_atom_tag; eassumption.
  - eexists. split; [|reflexivity]. eapply P_pagination; eassumption.
  - eexists. split; [|reflexivity]. eapply P_pagination_tag; eassumption.
  - apply nth_reread in H3. destruct H3 as (f0 & H3 & ->). exists [c_settings c; c_main c; f0]. split; [|reflexivity]. eapply P_post; eassumption.
  - eexists. split; [|reflexivity]. eapply P_tag; eassumption.
  - apply nth_reread in H3. destruct H3 as (f0 & H3 & ->). exists [c_settings c; c_main c; f0]. split; [|reflexivity]. eapply P_page; eassumption.
  - cbn [c_copy reread] in H2. apply in_map_iff in H2. destruct H2 as (f0 & <- & H2). exists [c_settings c; f0]. split; [|reflexivity].
    destruct (same f0) as (_ & E & _). rewrite E. apply (@P_copy c); assumption.
Qed.
Lemma nth_again (l : list (option fctx)) i f : nth_error l i = Some (Some f) -> nth_error (map (option_map g) l) i = Some (Some (g f)).
Proof. intro H. rewrite nth_error_map, H. reflexivity. Qed.
Lemma product_again answer rule n d : product c answer rule n d -> product c' answer rule n (map g d).
Proof.
  intro P. destruct P as [n H1 H2 H3|n H1 H2 H3|tags t n H1 H2 H3 H4 H5|k n H1 H2 H3 H4|tags t k n H1 H2 H3 H4 H5 H6|posts i p f n H1 H2 H3 H4|tags t n H1 H2 H3 H4 H5|pages i p f n H1 H2 H3 H4|f H1 H2];
    rewrite <- ?listing_reread, <- ?feed_reread.
  - apply P_index; assumption.
  - apply P_atom; assumption.
  - eapply P_atom_tag; eassumption.
  - eapply P_pagination; eassumption.
  - eapply P_pagination_tag; eassumption.
  - apply nth_again in H3. eapply (@P_post c'); eassumption.
  - eapply P_tag; eassumption.
  - apply nth_again in H3. eapply (@P_page c'); eassumption.
  - destruct (same f) as (_ & E & _). rewrite <- E. apply (@P_copy c'); [assumption|]. apply in_map. exact H2.
Qed.
(* the same recipe, with the files seen again *)
Lemma recipe_again answer rule n d j : product c answer rule n d -> recipe c rule n j ->
  match j with
  | JCopy f => recipe c' rule n (JCopy (g f))
  | JBlogc gv lv listing entry template srcs first =>
      exists template', ((template' = g template /\ In template d) \/ (c_atom_tmp c = true /\ template = c_atom c /\ template' = feed)) /\
        recipe c' rule n (JBlogc gv lv listing (option_map g entry) template' (map (option_map g) srcs) first)
  end.
Proof.
  intros P R.
  assert (Ha : feed_deps c = d -> exists template', ((template' = g (c_atom c) /\ In (c_atom c) d) \/ (c_atom_tmp c = true /\ c_atom c = c_atom c /\ template' = feed)) /\ template' = c_atom c').
  { intros <-. unfold feed_deps. cbn [c_atom reread]. destruct (c_atom_tmp c); [exists feed; auto|eexists; split; [left; split; [reflexivity|right; left; reflexivity]|reflexivity]]. }
  destruct R as [n o v H1 H2 H3|n o v H1 H2 H3|tags t n o v H1 H2 H3 H4 H5|k n o v H1 H2 H3|tags t k n o v H1 H2 H3 H4 H5|posts i p f n o v lv H1 H2 H3 H4 H5 H6 H7|tags t n o v H1 H2 H3 H4 H5|pages i p f n v lv H1 H2 H3 H4 H5 H6|f H].
  1,4,5,7: assert (M : In (c_main c) d) by (inversion P; subst; try discriminate; right; left; reflexivity).
  5,6: assert (M : feed_deps c = d) by (inversion P; subst; try discriminate; reflexivity).
  7,8: assert (M : In (c_main c) d) by (inversion P; subst; try discriminate; right; left; reflexivity).
  1-4: exists (g (c_main c)); (split; [left; split; [reflexivity|exact M]|]).
  - eapply (@R_index c'); eassumption.
  - eapply (@R_pagination c'); eassumption.
  - eapply (@R_pagination_tag c'); eassumption.
  - eapply (@R_tag c'); eassumption.
  - destruct (Ha M) as (a' & Hb & ->). eexists. split; [exact Hb|]. eapply (@R_atom c'); eassumption.
  - destruct (Ha M) as (a' & Hb & ->). eexists. split; [exact Hb|]. eapply (@R_atom_tag c'); eassumption.
  - exists (g (c_main c)). split; [left; auto|]. rewrite <- skipn_map. apply nth_again in H3.
    assert (S : slug_of (g f) = slug_of f) by (unfold slug_of; destruct (same f) as (_ & _ & ->); reflexivity). rewrite <- S in H7.
    eapply (@R_post c'); eassumption.
  - exists (g (c_main c)). split; [left; auto|]. rewrite <- skipn_map. apply nth_again in H3.
    assert (S : slug_of (g f) = slug_of f) by (unfold slug_of; destruct (same f) as (_ & _ & ->); reflexivity). rewrite <- S in H6.
    eapply (@R_page c'); eassumption.
  - destruct (same f) as (_ & E & _). rewrite <- E. apply (@R_copy c'). apply in_map. exact H.
Qed.
(* what a recipe reads is among the files the product depends on *)
Lemma recipe_reads answer rule n d j : distinct c answer -> product c answer rule n d -> recipe c rule n j ->
  match j with
  | JCopy f => In f d
  | JBlogc gv lv listing entry template srcs first =>
      (forall e, entry = Some e -> In e d) /\
      forall f, In (Some f) (if first then firstn 1 srcs else srcs) -> In f d
  end.
Proof.
  intros D P R.
  assert (L : listing_deps c = d -> (forall e, c_entry c = Some e -> In e d) /\
    forall f, In (Some f) (c_posts c) -> In f d).
  { intros <-. unfold listing_deps. split; [intros e ->; right; right; left; reflexivity|].
    intros f Hf. rewrite !in_app_iff. right. right. unfold somes. apply in_flat_map. exists (Some f). split; [exact Hf|left; reflexivity]. }
  assert (F : feed_deps c = d -> (forall e, None = Some e -> In e d) /\
    forall f, In (Some f) (c_posts c) -> In f d).
  { intros <-. unfold feed_deps. split; [discriminate|].
    intros f Hf. rewrite !in_app_iff. right. right. unfold somes. apply in_flat_map. exists (Some f). split; [exact Hf|left; reflexivity]. }
  assert (K : forall l i f x, nth_error l i = Some (Some f) -> In (Some x) (firstn 1 (skipn i l)) -> x = f :> fctx).
  { intros l. induction l as [|y l IH]; intros [|i] f x; cbn; try discriminate; [|apply IH]. intros [= ->] [H|[]]. congruence. }
  destruct R as [n o v H1 H2 H3|n o v H1 H2 H3|tags t n o v H1 H2 H3 H4 H5|k n o v H1 H2 H3|tags t k n o v H1 H2 H3 H4 H5|posts i p f n o v lv H1 H2 H3 H4 H5 H6 H7|tags t n o v H1 H2 H3 H4 H5|pages i p f n v lv H1 H2 H3 H4 H5 H6|f H].
  1,4,5,7: (apply L; inversion P; subst; try discriminate; reflexivity).
  1,2: (apply F; inversion P; subst; try discriminate; reflexivity).
  - assert (Q : product c answer (B "posts") n [c_settings c; c_main c; f]) by (eapply P_post; eassumption).
    destruct (D _ _ _ _ _ _ P Q eq_refl) as (_ & _ & <-). split; [discriminate|].
    intros x Hx. rewrite (K _ _ _ _ H3 Hx). right. right. left. reflexivity.
  - assert (Q : product c answer (B "pages") n [c_settings c; c_main c; f]) by (eapply P_page; eassumption).
    destruct (D _ _ _ _ _ _ P Q eq_refl) as (_ & _ & <-). split; [discriminate|].
    intros x Hx. rewrite (K _ _ _ _ H3 Hx). right. right. left. reflexivity.
  - assert (Hs : s_copy (c_st c) <> None) by (inversion P; subst; try discriminate; assumption).
    assert (Q : product c answer (B "copy") (c_short_output c ++ B "/" ++ f_short f) [c_settings c; f]) by (apply P_copy; assumption).
    destruct (D _ _ _ _ _ _ P Q eq_refl) as (_ & _ & <-). right. left. reflexivity.
Qed.
End Reread.

Lemma in_somes {A} (l : list (option A)) x : In (Some x) l <-> In x (somes l).
Proof.
  unfold somes. rewrite in_flat_map. split; [intro H; exists (Some x); split; [exact H|left; reflexivity]|]. intros ([y|] & H & I); [destruct I as [<-|[]]; exact H|destruct I].
Qed.
Lemma product_settings c answer rule n d : product c answer rule n d -> In (c_settings c) d.
Proof. intro P. destruct P; unfold listing_deps, feed_deps; try (left; reflexivity). Qed.
Lemma product_sources c answer rule n d f : product c answer rule n d -> In f d -> In f (sources c).
Proof.
  intros P Hf. unfold sources.
  assert (L : In f (listing_deps c) -> In f (sources c)) by (unfold listing_deps, sources; rewrite !in_app_iff; tauto).
  assert (F : In f (feed_deps c) -> In f (sources c)) by (unfold feed_deps, sources; rewrite !in_app_iff; cbn [In]; tauto).
  destruct P as [n H1 H2 H3|n H1 H2 H3|tags t n H1 H2 H3 H4 H5|k n H1 H2 H3 H4|tags t k n H1 H2 H3 H4 H5 H6|posts i p f' n H1 H2 H3 H4|tags t n H1 H2 H3 H4 H5|pages i p f' n H1 H2 H3 H4|f' H1 H2]; auto.
  - apply nth_error_In in H3. apply in_somes in H3. rewrite !in_app_iff. cbn [In]. destruct Hf as [<-|[<-|[<-|[]]]]; tauto.
  - apply nth_error_In in H3. apply in_somes in H3. rewrite !in_app_iff. cbn [In]. destruct Hf as [<-|[<-|[<-|[]]]]; tauto.
  - rewrite !in_app_iff. cbn [In]. destruct Hf as [<-|[<-|[]]]; tauto.
Qed.
Lemma product_answer c a1 a2 rule n d : product c a1 rule n d -> ((forall f, In (Some f) (c_posts c) -> In f d) -> forall tag, a2 tag = a1 tag) -> product c a2 rule n d.
Proof.
  intros P H. assert (L : forall f, In (Some f) (c_posts c) -> In f (listing_deps c)) by (intros f Hf; apply in_somes in Hf; unfold listing_deps; rewrite !in_app_iff; tauto).
  pose proof P as P0. destruct P as [n H1 H2 H3|n H1 H2 H3|tags t n H1 H2 H3 H4 H5|k n H1 H2 H3 H4|tags t k n H1 H2 H3 H4 H5 H6|posts i p f' n H1 H2 H3 H4|tags t n H1 H2 H3 H4 H5|pages i p f' n H1 H2 H3 H4|f' H1 H2].
  - apply P_index; assumption.
  - apply P_atom; assumption.
  - eapply P_atom_tag; eassumption.
  - apply P_pagination with (k := k); try assumption. unfold BuildSpec.page_of in *. rewrite (H L). assumption.
  - apply P_pagination_tag with (tags := tags) (t := t) (k := k); try assumption. unfold BuildSpec.page_of in *. rewrite (H L). assumption.
  - eapply P_post; eassumption.
  - eapply P_tag; eassumption.
  - eapply P_page; eassumption.
  - apply P_copy; assumption.
Qed.

Definition with_template (o : opts) (t : bytes) : opts :=
  Opts (o_debug o) (o_stdin o) (o_listing o) (Some t) (o_output o) (o_print o) (o_sources o) (o_entries o) (o_config o).
Lemma page_moved c1 c2 mktime strftime funcs fuel o l page t' : Forall (fun f => c1 f = c2 f) l -> (o_listing o = true -> Forall (fun f => c1 f = c2 f) (o_entries o)) ->
  (forall t, o_template o = Some t -> c1 t = c2 t') ->
  P_MainRun.page_of c1 mktime strftime funcs fuel o l page -> P_MainRun.page_of c2 mktime strftime funcs fuel (with_template o t') l page.
Proof.
  intros Hl He Ht (posts & config & entries & t & s & ast & H1 & H2 & H3 & H4 & H5 & H6).
  exists posts, config, entries, t', s, ast. cbn [with_template o_config o_listing o_entries o_template]. rewrite <- (files_agree mktime strftime fuel (o_config o) Hl). split; [exact H1|]. split.
  - destruct (o_listing o); [|exact H2]. specialize (He eq_refl). clear - H2 He. induction H2 as [|f e l r H _ IH]; [constructor|].
    inversion He as [|? ? E He']; subst. constructor; [|apply IH; exact He']. unfold entry_of in *.
    destruct H as [H|(Hf & x & Hx & ->)]; [left; exact H|]. right. split; [exact Hf|]. exists x. rewrite <- (from_file_agree fuel config E). auto.
  - split; [reflexivity|]. rewrite <- (Ht _ H3). split; [exact H4|]. split; assumption.
Qed.

Section History.
Variable W : Type.
Variable stat : W -> bytes -> option (Z * Z).
Variable file : W -> bytes -> option bytes.
Variable text : bytes -> option bytes.
Variable mktime : tm -> tm.
Variable strftime : option bytes -> bytes -> tm -> option bytes.
Variable funcs : W -> list (bytes * (vars -> vars)).
Variable sfuel rfuel : nat.
Variable mkdir fopen : W -> bytes -> bool.
Variable version : bytes.
Variable command : W -> bytes -> bytes -> W * cmd_result.
Variable cp : W -> fctx -> fctx -> W * nat.
Notation honest := (honest stat file text mktime strftime funcs sfuel version).
Notation right := (right file text mktime strftime funcs sfuel version).
Notation made_by := (made_by file text mktime strftime funcs sfuel version).
Notation edited := (edited stat file).

Lemma made_again g feed c w w' path rule n d j answer : (forall f, alike f (g f)) -> distinct c answer -> product c answer rule n d -> recipe c rule n j ->
  (forall f, In f d -> file w' (f_path f) = file w (f_path f)) -> (c_atom_tmp c = true -> file w' (f_path feed) = file w (f_path (c_atom c))) ->
  file w' path = file w path -> made_by c w path j -> exists j', recipe (reread g feed c) rule n j' /\ made_by (reread g feed c) w' path j'.
Proof.
  intros same D P R Hd Hf Hp M. pose proof (recipe_reads D P R) as Q. pose proof (recipe_again feed same P R) as A.
  destruct j as [gv lv listing entry template srcs first|f].
  - destruct A as (t' & Ht & A). destruct Q as (Q1 & Q3). exists (JBlogc gv lv listing (option_map g entry) t' (map (option_map g) srcs) first). split; [exact A|].
    destruct M as (o & p & page & moment & M1 & M2 & M3 & M4 & M5 & M6 & M7 & M8).
    exists (with_template o (f_path t')), p, page, moment. split; [exact M1|]. split; [exact M2|]. split; [reflexivity|]. split; [exact M4|].
    split; [cbn [with_template o_entries]; rewrite M5; destruct listing; [|reflexivity]; destruct entry as [e|]; [|reflexivity]; cbn; destruct (same e) as (-> & _); reflexivity|].
    split.
    { replace (if first then firstn 1 (map (option_map g) srcs) else map (option_map g) srcs) with (map (option_map g) (if first then firstn 1 srcs else srcs)) by (destruct first; [rewrite firstn_map|]; reflexivity).
      clear - M6 same. induction M6 as [|s x l p (f & -> & ->) _ IH]; [constructor|]. cbn [map]. constructor; [|exact IH]. exists (g f). split; [reflexivity|]. destruct (same f) as (-> & _). reflexivity. }
    split; [|rewrite Hp; exact M8]. eapply page_moved; [| | |exact M7].
    + apply Forall_forall. intros x Hx. clear - M6 Hx Q3 Hd. unfold contents. revert Q3. induction M6 as [|s y l p (f & -> & ->) _ IH]; [destruct Hx|]. intro Q3.
      destruct Hx as [<-|Hx]; [|apply IH; [exact Hx|]; intros f' Hf'; apply Q3; right; exact Hf']. rewrite Hd by (apply Q3; left; reflexivity). reflexivity.
    + intro L. rewrite M5. destruct listing; [|constructor]. destruct entry as [e|]; [|constructor]. constructor; [|constructor]. unfold contents. rewrite Hd by (apply Q1; reflexivity). reflexivity.
    + intros t E. rewrite M3 in E. injection E as <-. unfold contents. destruct Ht as [[-> Q2]|(T1 & -> & ->)].
      * destruct (same template) as (-> & _). rewrite Hd by exact Q2. reflexivity.
      * rewrite Hf by exact T1. reflexivity.
  - exists (JCopy (g f)). split; [exact A|]. destruct M as [M1 M2]. cbn. destruct (same f) as (-> & _). rewrite Hd by exact Q. rewrite Hp. auto.
Qed.

(* what was right stays so, as far as the times tell *)
Lemma edit_honest c answer w c' answer' w' : distinct c answer -> same_answers file c answer w c' answer' w' -> edited c answer w c' answer' w' -> honest c answer w -> honest c' answer' w'.
Proof.
  intros D Ha E H rule n d' P (t & Ht & Hd). destruct E as [N O|g feed -> same K Hf O].
  - exfalso. destruct (O _ _ _ P) as [O1|[O1 _]]; [congruence|]. rewrite O1 in Ht. exact (N _ _ _ _ P Ht (Hd _ (product_settings P))).
  - destruct (O _ _ _ P) as [O1|[O1 O2]]; [congruence|]. rewrite O1 in Ht. change (absolute (reread g feed c) n) with (absolute c n) in *.
    destruct (product_reread same P) as (d & P1 & ->).
    assert (Kd : forall f, In f d -> kept file w w' f (g f)).
    { intros f Hx. destruct (K f (product_sources P1 Hx)) as [X|X]; [exact X|]. destruct (X _ _ _ _ P Ht). apply Hd. apply in_map. exact Hx. }
    assert (P2 : product c answer rule n d).
    { eapply product_answer; [exact P1|]. intros Hp tag. symmetry. apply Ha; [reflexivity| |intros f Hx; apply Kd, Hp, Hx].
      cbn [c_posts reread]. rewrite map_map. apply map_ext. intros [f|]; [|reflexivity]. cbn. destruct (same f) as (-> & _). reflexivity. }
    destruct (H rule n d P2) as (r2 & n2 & d2 & j & R1 & R2 & R3 & R4).
    { exists t. split; [exact Ht|]. intros f Hx. specialize (Hd (g f) (in_map g _ _ Hx)). destruct (Kd f Hx) as [_ X]. clear - Hd X. unfold not_later in *. lia. }
    destruct (D _ _ _ _ _ _ P2 R1 R3) as (-> & -> & ->).
    destruct (made_again (g := g) (feed := feed) (w' := w') same D R1 R2 (fun f Hx => proj1 (Kd f Hx)) Hf O2 R4) as (j' & J1 & J2).
    exists rule, n, (map g d), j'. split; [exact P|]. split; [exact J1|]. split; [reflexivity|]. exact J2.
Qed.

(* what is assumed for a run, C89; [now]: the clock is where it was when the site was read,
   or later *)
Definition fit (c : ctx) (answer : option bytes -> option bytes) (w : W) : Prop :=
  exists now src bin, settings_parse src = Ok (Datatypes.inl (c_st c)) /\ utf8 src /\ tags_ok (c_st c) /\ P_BlogcCmd.word (e_blogc (c_exec c)) bin /\
    nameable c answer /\ apart c answer /\ site_ok c /\
    runs_blogc stat file text mktime strftime funcs sfuel rfuel mkdir fopen version now c bin command /\ copies stat file now c cp /\
    answers command (meanwhile file now c w) c answer /\ now w.
(* a site, edited and built again and again; a run may fail, and whatever is not built is
   left as it is *)
Inductive history : ctx -> (option bytes -> option bytes) -> W -> Prop :=
| H_new c answer w : (forall rule n d, product c answer rule n d -> stat w (absolute c n) = None) -> history c answer w
| H_run c answer w w' r : history c answer w -> fit c answer w -> all_exec stat command cp c w = (w', r) -> history c answer w'
| H_edit c answer w c' answer' w' : history c answer w -> distinct c answer -> same_answers file c answer w c' answer' w' -> edited c answer w c' answer' w' -> history c' answer' w'.

Lemma history_honest c answer w : history c answer w -> honest c answer w.
Proof.
  induction 1 as [c answer w H|c answer w w' r _ IH F R|c answer w c' answer' w' _ IH D Sa E].
  - intros rule n d P (t & Ht & _). rewrite (H _ _ _ P) in Ht. discriminate.
  - destruct F as (now & src & bin & F1 & F2 & F3 & F4 & F5 & F6 & F7 & F8 & F9 & F10 & F11).
    exact (proj1 (C89_partial F1 F2 F3 F4 F5 F6 F7 F8 F9 F10 F11 IH R)).
  - exact (edit_honest D Sa E IH).
Qed.
(* After any history of edits and runs, a run that succeeds leaves every file of the site up
   to date and holding what the sources of now say. *)
Theorem C91_history_partial : forall c answer w w', history c answer w -> fit c answer w -> all_exec stat command cp c w = (w', Ok 0) ->
  (forall f, In f (inputs c) -> file w' (f_path f) = file w (f_path f)) /\
  forall rule n d, product c answer rule n d -> up_to_date stat w' (absolute c n) d /\ right c answer w' (absolute c n).
Proof.
  intros c answer w w' H F R. apply history_honest in H. destruct F as (now & src & bin & F1 & F2 & F3 & F4 & F5 & F6 & F7 & F8 & F9 & F10 & F11).
  destruct (C89_partial F1 F2 F3 F4 F5 F6 F7 F8 F9 F10 F11 H R) as (_ & A & K). split; [exact A|]. apply K. reflexivity.
Qed.
End History.
Print Assumptions C91_history_partial.

(* ---- the site of C89_example: built, its first post edited, built again ---- *)
Definition h_edit (t : Z) (w : sdisk) : sdisk :=
  ((B "/r/a.txt", (t, B "TITLE: A" ++ [LF] ++ B "TAGS: x" ++ [LF] ++ B "-----" ++ [LF] ++ B "New." ++ [LF])) :: fst w, Z.max (snd w) t + 1)%Z.
Definition h_built : sdisk := fst (all_exec s_stat s_command s_cp s_site s_world).
Definition h_edited : sdisk := h_edit 100 h_built.
Definition h_again (t : Z) (f : fctx) : fctx := if beq (f_path f) (B "/r/a.txt") then Fctx (f_path f) (f_short f) (f_slug f) (t, 0)%Z true else f.
Notation h_history := (history s_stat s_file Some (fun t => t) (fun _ _ _ => None) (fun _ => []) 400 400 (fun _ _ => true) (fun _ _ => true) (B "1") s_command s_cp).
Notation h_fit := (fit s_stat s_file Some (fun t => t) (fun _ _ _ => None) (fun _ => []) 400 400 (fun _ _ => true) (fun _ _ => true) (B "1") s_command s_cp).
Definition h_products : list (bytes * bytes * list fctx) :=
  [(B "index", B "_build/index.html", listing_deps s_site); (B "atom", B "_build/atom.xml", feed_deps s_site); (B "atom_tags", B "_build/atom/x.xml", feed_deps s_site);
   (B "pagination", B "_build/page/1/index.html", listing_deps s_site); (B "pagination", B "_build/page/2/index.html", listing_deps s_site);
   (B "pagination_tags", B "_build/tag/x/page/1/index.html", listing_deps s_site);
   (B "posts", B "_build/post/a/index.html", [c_settings s_site; c_main s_site; s_in (B "a.txt") 3%Z (Some (B "a"))]);
   (B "posts", B "_build/post/b/index.html", [c_settings s_site; c_main s_site; s_in (B "b.txt") 4%Z (Some (B "b"))]);
   (B "tags", B "_build/tag/x/index.html", listing_deps s_site);
   (B "pages", B "_build/about/index.html", [c_settings s_site; c_main s_site; s_in (B "about.txt") 5%Z (Some (B "about"))]);
   (B "copy", B "_build/c.css", [c_settings s_site; s_in (B "c.css") 6%Z None])].
Lemma some_some (A : Type) (x y : A) : Some (Some x) = Some (Some y) -> y = x.
Proof. congruence. Qed.
Lemma h_product rule n d : product s_site s_answer rule n d -> In (rule, n, d) h_products.
Proof.
  assert (Po : s_posts (c_st s_site) = Some [B "a"; B "b"]) by (vm_compute; reflexivity).
  assert (Pa : s_pages (c_st s_site) = Some [B "about"]) by (vm_compute; reflexivity).
  assert (Ta : s_tags (c_st s_site) = Some [B "x"]) by (vm_compute; reflexivity).
  assert (Pg : forall tag k, BuildSpec.page_of s_answer tag k -> k = 1 \/ k = 2 /\ tag = None).
  { intros [t|] k (s & E & H); injection E as <-; [replace (fst (strtol (B "1"))) with 1%Z in H by reflexivity; left; lia|].
    replace (fst (strtol (B "2"))) with 2%Z in H by reflexivity. destruct (Nat.eq_dec k 1) as [->|N]; [left; reflexivity|right; split; [lia|reflexivity]]. }
  intros [n' _ _ E|n' _ _ E|tags t n' _ E1 E2 _ E|k n' _ _ E2 E|tags t k n' _ E1 E2 _ E3 E|posts i p f n' E1 E2 E3 E|tags t n' _ E1 E2 _ E|pages i p f n' E1 E2 E3 E|f _ E].
  all: try (rewrite Ta in E1; injection E1 as <-; destruct E2 as [<-|[]]).
  - vm_compute in E. injection E as <-. left. reflexivity.
  - vm_compute in E. injection E as <-. right; left. reflexivity.
  - vm_compute in E. injection E as <-. do 2 right; left. reflexivity.
  - destruct (Pg _ _ E2) as [->|[-> _]]; vm_compute in E; injection E as <-; [do 3 right; left; reflexivity|do 4 right; left; reflexivity].
  - destruct (Pg _ _ E3) as [->|[_ X]]; [|discriminate X]. vm_compute in E. injection E as <-. do 5 right; left. reflexivity.
  - rewrite Po in E1. injection E1 as <-. destruct i as [|[|i]]; [| |destruct i; discriminate E2]; injection E2 as <-; unfold s_site, s_site_at in E3; cbn [c_posts nth_error] in E3; apply some_some in E3; rewrite E3; clear E3; vm_compute in E; injection E as <-.
    + do 6 right; left. reflexivity.
    + do 7 right; left. reflexivity.
  - vm_compute in E. injection E as <-. do 8 right; left. reflexivity.
  - rewrite Pa in E1. injection E1 as <-. destruct i as [|i]; [|destruct i; discriminate E2]. injection E2 as <-; unfold s_site, s_site_at in E3; cbn [c_pages nth_error] in E3; apply some_some in E3; rewrite E3; clear E3; vm_compute in E; injection E as <-.
    do 9 right; left. reflexivity.
  - destruct E as [<-|[]]. do 10 right; left. reflexivity.
Qed.
Lemma h_distinct : distinct s_site s_answer.
Proof.
  intros rule n d rule' n' d' P P' E. apply h_product in P, P'.
  assert (X : Forall (fun x => Forall (fun y => absolute s_site (snd (fst y)) = absolute s_site (snd (fst x)) -> y = x) h_products) h_products).
  { repeat (constructor; [repeat (constructor; [cbn; intro X; try reflexivity; discriminate|]); constructor|]). constructor. }
  rewrite Forall_forall in X. specialize (X _ P). rewrite Forall_forall in X. specialize (X _ P' E). injection X as -> -> ->. auto.
Qed.

Lemma h_fit1 : h_fit s_site s_answer s_world.
Proof.
  destruct C89_example as (E1 & E2 & E3 & E4 & E5 & E6 & E7 & E8 & E9 & E10 & E11 & _). exists (s_now_at 9), s_text, (B "blogc").
  split; [exact E1|]. split; [exact E2|]. split; [exact E3|]. split; [exact E4|]. split; [exact E5|]. split; [exact E6|]. split; [exact E7|]. split; [exact E8|]. split; [exact E9|].
  split; [exact E10|]. exact E11.
Qed.
Lemma h_now : s_now_at 101 h_edited.
Proof.
  assert (X : forallb (fun x => Z.leb (fst (snd x)) (snd h_edited)) (fst h_edited) && Z.leb 101 (snd h_edited) = true) by (vm_compute; reflexivity).
  apply andb_true_iff in X. destruct X as [X1 X2]. split; [|apply Z.leb_le; exact X2]. apply Forall_forall. intros x Hx. rewrite forallb_forall in X1. apply Z.leb_le, X1. exact Hx.
Qed.
Lemma h_fit2 : h_fit (s_site_at 100) s_answer h_edited.
Proof.
  assert (A1 : s_asked 100 h_edited None (Some (B "2"))) by (vm_compute; split; [reflexivity|split; reflexivity]).
  assert (A2 : s_asked 100 h_edited (Some (trie_insert trie_new (B "FILTER_TAG") (B "x"))) (Some (B "1"))) by (vm_compute; split; [reflexivity|split; reflexivity]).
  assert (A3 : match built_files (s_site_at 100) (build_rules s_stat s_command s_cp) h_edited with (_, Ok l) => map (option_map (fun f => f_path f)) l | _ => [] end = map Some s_outputs) by (vm_compute; reflexivity).
  pose proof (s_answers 101 A1 A2) as K1. pose proof (s_nameable h_now A1 A2 A3) as K2. pose proof (s_apart h_now A1 A2 A3) as K3.
  destruct (s_settings_ok 100) as (B1 & B2 & B3 & B4). exists (s_now_at 101), s_text, (B "blogc").
  split; [exact B1|]. split; [exact B2|]. split; [exact B3|]. split; [exact B4|]. split; [exact K2|]. split; [exact K3|]. split; [exact (s_ok 100)|].
  split; [apply s_runs; [discriminate|reflexivity]|]. split; [apply s_copies; [discriminate|reflexivity]|]. split; [exact K1|exact h_now].
Qed.
Lemma h_alike t f : alike f (h_again t f).
Proof. unfold h_again; destruct (beq _ _); repeat split. Qed.
Lemma h_reread t : s_site_at t = reread (h_again t) (c_main s_site) s_site.
Proof. reflexivity. Qed.
Lemma h_output rule n d : product (s_site_at 100) s_answer rule n d -> In (absolute s_site n) s_outputs.
Proof.
  rewrite h_reread. intro P. destruct (product_reread (h_alike 100) P) as (d0 & P0 & _). apply h_product in P0.
  assert (Y : forallb (fun x => existsb (beq (absolute s_site (snd (fst x)))) s_outputs) h_products = true) by (vm_compute; reflexivity). rewrite forallb_forall in Y.
  specialize (Y _ P0). apply existsb_exists in Y. destruct Y as (p & Hp & Ep). apply beq_eq in Ep. cbn [fst snd] in Ep. rewrite Ep. exact Hp.
Qed.
Lemma h_output_kept p : In p s_outputs -> s_stat h_edited p = s_stat h_built p /\ s_file h_edited p = s_file h_built p.
Proof. revert p. apply Forall_forall. repeat (constructor; [split; vm_compute; reflexivity|]). constructor. Qed.
Lemma h_source f : In f (sources s_site) -> s_file h_edited (f_path f) = s_file h_built (f_path f) /\ h_again 100 f = f \/ f_time (h_again 100 f) = (100, 0)%Z.
Proof. revert f. apply Forall_forall. repeat (constructor; [first [left; split; vm_compute; reflexivity|right; vm_compute; reflexivity]|]). constructor. Qed.
Lemma h_before p t : s_stat h_built p = Some t -> (fst t < 100)%Z.
Proof.
  assert (N : forallb (fun x => Z.ltb (fst (snd x)) 100) (fst h_built) = true) by (vm_compute; reflexivity). revert N. generalize h_built. intros w N E.
  unfold s_stat in E. destruct (s_find w p) as [x|] eqn:F; [|discriminate]. injection E as <-. rewrite forallb_forall in N.
  unfold s_find in F. destruct (find _ (fst w)) as [y|] eqn:G; [|discriminate]. injection F as <-. apply find_some in G. specialize (N y (proj1 G)). apply Z.ltb_lt in N. exact N.
Qed.
Lemma h_is_edited : edited s_stat s_file s_site s_answer h_built (s_site_at 100) s_answer h_edited.
Proof.
  apply Ed_sources with (g := h_again 100) (feed := c_main s_site).
  - apply h_reread.
  - apply h_alike.
  - intros f Hf. destruct (h_source Hf) as [[X1 X2]|X1].
    + left. split; [exact X1|]. rewrite X2. apply not_later_refl.
    + right. intros rule n d t _ E. rewrite X1. pose proof (h_before E). unfold not_later. cbn [fst snd]. lia.
  - discriminate.
  - intros rule n d P. right. apply h_output in P. apply h_output_kept. exact P.
Qed.
Lemma h_history_built : h_history s_site s_answer h_built.
Proof.
  destruct (all_exec s_stat s_command s_cp s_site s_world) as [w r] eqn:E. replace h_built with w by (unfold h_built; rewrite E; reflexivity).
  apply H_run with (w := s_world) (r := r); [|exact h_fit1|exact E].
  apply H_new. intros rule n d P. apply h_product in P.
  assert (Y : forallb (fun x => match s_stat s_world (absolute s_site (snd (fst x))) with None => true | Some _ => false end) h_products = true) by (vm_compute; reflexivity).
  rewrite forallb_forall in Y. specialize (Y _ P). cbn [fst snd] in Y. destruct (s_stat s_world (absolute s_site n)); [discriminate|reflexivity].
Qed.
Example C91_example : h_history (s_site_at 100) s_answer h_edited /\ h_fit (s_site_at 100) s_answer h_edited /\
  s_file h_edited (B "/r/_build/post/a/index.html") = Some (B "The site: A <p>Hi <em>a</em>.</p>" ++ [LF]) /\
  let (w, r) := all_exec s_stat s_command s_cp (s_site_at 100) h_edited in
  r = Ok 0 /\ s_file w (B "/r/_build/post/a/index.html") = Some (B "The site: A <p>New.</p>" ++ [LF]) /\
  s_stat w (B "/r/_build/post/b/index.html") = s_stat h_built (B "/r/_build/post/b/index.html").
Proof.
  split; [|split; [exact h_fit2|split; [vm_compute; reflexivity|vm_compute; repeat split; reflexivity]]].
  apply H_edit with (c := s_site) (answer := s_answer) (w := h_built); [|exact h_distinct|intros _ _ _ tag; reflexivity|exact h_is_edited].
  exact h_history_built.
Qed.

Lemma h_missed : exists w2 w3, all_exec s_stat s_command s_cp (s_site_at 33) (h_edit 33 h_built) = (w2, Ok 0) /\
  all_exec s_stat s_command s_cp (s_site_at 33) (h_edit 33 s_world) = (w3, Ok 0) /\ s_file w2 (B "/r/_build/post/a/index.html") <> s_file w3 (B "/r/_build/post/a/index.html").
Proof.
  assert (X : forall (a b : sdisk * res nat) (o : bytes), (snd a = Ok 0 /\ snd b = Ok 0 /\ s_file (fst a) o <> s_file (fst b) o) ->
    exists w2 w3, a = (w2, Ok 0) /\ b = (w3, Ok 0) /\ s_file w2 o <> s_file w3 o).
  { intros [w2 r2] [w3 r3] o (H1 & H2 & H3). cbn [fst snd] in *. subst. eauto. }
  apply X. clear X. vm_compute. split; [reflexivity|split; [reflexivity|discriminate]].
Qed.
Lemma h_tick : s_stat h_built (B "/r/_build/post/a/index.html") = Some (33, 0)%Z.
Proof. vm_compute. reflexivity. Qed.
Lemma h_changed : s_file (h_edit 33 h_built) (B "/r/a.txt") <> s_file h_built (B "/r/a.txt").
Proof. vm_compute. discriminate. Qed.
Lemma h_others w p : p <> B "/r/a.txt" -> s_file (h_edit 33 w) p = s_file w p /\ s_stat (h_edit 33 w) p = s_stat w p.
Proof.
  intros Hp. unfold s_file, s_stat, s_find, h_edit. cbn [fst snd find]. replace (beq (B "/r/a.txt") p) with false; [split; reflexivity|]. symmetry. apply beq_neq. congruence.
Qed.
Lemma h_same_sources f : In f (inputs s_site) -> s_file (h_edit 33 s_world) (f_path f) = s_file (h_edit 33 h_built) (f_path f).
Proof. revert f. apply Forall_forall. repeat (constructor; [vm_compute; reflexivity|]). constructor. Qed.
Lemma h_none : s_file (h_edit 33 s_world) (B "/r/_build/post/a/index.html") = None.
Proof. vm_compute. reflexivity. Qed.
(* the claim without [newer]: fails. A post that is changed when the clock still shows what
   it did when its page was written is not seen: the next run succeeds, and the page is not
   what a run from scratch makes. *)
Theorem C91_same_time_refuted : exists src c answer w c' w' w0 w2 w3 out f t,
  settings_parse src = Ok (Datatypes.inl (c_st c)) /\ h_history c answer w /\ distinct c answer /\
  c' = reread (fun x => if beq (f_path x) (f_path f) then Fctx (f_path x) (f_short x) (f_slug x) t true else x) (c_atom c) c /\
  In f (sources c) /\ s_stat w out = Some t /\ s_file w' (f_path f) <> s_file w (f_path f) /\
  (forall p, p <> f_path f -> s_file w' p = s_file w p /\ s_stat w' p = s_stat w p) /\
  (forall x, In x (inputs c) -> s_file w0 (f_path x) = s_file w' (f_path x)) /\ s_file w0 out = None /\
  all_exec s_stat s_command s_cp c' w' = (w2, Ok 0) /\ all_exec s_stat s_command s_cp c' w0 = (w3, Ok 0) /\ s_file w2 out <> s_file w3 out.
Proof.
  destruct (s_settings_ok 3) as (A1 & _). destruct h_missed as (w2 & w3 & E2 & E3 & R).
  exists s_text, s_site, s_answer, h_built, (s_site_at 33), (h_edit 33 h_built), (h_edit 33 s_world), w2, w3, (B "/r/_build/post/a/index.html"), (s_in (B "a.txt") 3%Z (Some (B "a"))), (33, 0)%Z.
  split; [exact A1|]. split; [exact h_history_built|]. split; [exact h_distinct|]. split; [reflexivity|]. split; [right; right; right; left; reflexivity|]. split; [exact h_tick|].
  split; [exact h_changed|]. split; [exact (h_others h_built)|]. split; [exact h_same_sources|]. split; [exact h_none|]. split; [exact E2|]. split; [exact E3|exact R].
Qed.
Print Assumptions C91_same_time_refuted.
