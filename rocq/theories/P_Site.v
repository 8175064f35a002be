(* C89: the files of a site that blogc-make built hold what they should. *)
From Verif Require Import Base Utf8Proofs Trie TrieProofs ShSpec Datetime Source Loader Settings SettingsSpec P_Settings Renderer BlogcCmd Rules RulesSpec BuildSpec Filelist Main MainSpec P_Main P_Build P_MainRun SiteSpec.
From Verif Require Utils Native P_Clean P_BlogcCmd Utf8Text SourceUtf8 ConfigUtf8 Content BlockOut BlockSpec BlockUtf8.
From Coq Require Import ZArith.
#[local] Open Scope nat_scope.
#[local] Arguments B : simpl never.

(* ---- a page depends only on the files it is made from ---- *)
Section Agree.
Variables (c1 c2 : bytes -> option bytes) (mktime : tm -> tm) (strftime : bytes -> tm -> option bytes).
Variable funcs : list (bytes * (vars -> vars)).
Variable fuel : nat.
Lemma from_file_agree conf f : c1 f = c2 f -> source_parse_from_file c1 fuel conf f = source_parse_from_file c2 fuel conf f.
Proof. unfold source_parse_from_file. intros ->. reflexivity. Qed.
Lemma load_agree conf sort l : Forall (fun f => c1 f = c2 f) l -> forall acc n,
  load_go c1 mktime strftime fuel conf sort l acc n = load_go c2 mktime strftime fuel conf sort l acc n.
Proof.
  induction 1 as [|f l H _ IH]; intros acc n; [reflexivity|]. cbn [load_go]. rewrite (from_file_agree conf H).
  destruct (source_parse_from_file c2 fuel conf f) as [[s|e]| |]; cbn [rbind]; try reflexivity. destruct sort; [|apply IH].
  destruct (trie_lookup s (B "DATE")); [|reflexivity]. destruct (convert_datetime _ _ _ _); [apply IH|reflexivity].
Qed.
Lemma files_agree conf l : Forall (fun f => c1 f = c2 f) l ->
  source_parse_from_files c1 mktime strftime fuel conf l = source_parse_from_files c2 mktime strftime fuel conf l.
Proof. intro H. unfold source_parse_from_files, gather. rewrite (load_agree conf _ H). reflexivity. Qed.
Lemma page_agree o l page : Forall (fun f => c1 f = c2 f) l -> (o_listing o = true -> Forall (fun f => c1 f = c2 f) (o_entries o)) ->
  (forall t, o_template o = Some t -> c1 t = c2 t) ->
  P_MainRun.page_of c1 mktime strftime funcs fuel o l page -> P_MainRun.page_of c2 mktime strftime funcs fuel o l page.
Proof.
  intros Hl He Ht (posts & config & entries & t & s & ast & H1 & H2 & H3 & H4 & H5 & H6).
  exists posts, config, entries, t, s, ast. rewrite <- (files_agree _ Hl). split; [exact H1|]. split.
  - destruct (o_listing o); [|exact H2]. specialize (He eq_refl). clear - H2 He. induction H2 as [|f e l r H _ IH]; [constructor|].
    inversion He as [|? ? E He']; subst. constructor; [|apply IH; exact He']. unfold entry_of in *.
    destruct H as [H|(Hf & x & Hx & ->)]; [left; exact H|]. right. split; [exact Hf|]. exists x. rewrite <- (from_file_agree config E). auto.
  - split; [exact H3|]. rewrite <- (Ht _ H3). split; [exact H4|]. split; assumption.
Qed.
End Agree.

(* ---- the variables of the recipes are names and texts ---- *)
Definition fine (kv : bytes * bytes) : Prop := valid_name (fst kv) /\ no_nul (snd kv) /\ utf8 (snd kv).
Lemma assoc_in n l x : assoc n l = Some x -> In (n, x) l.
Proof. induction l as [|[k v] l IH]; [discriminate|]. cbn [assoc]. destruct (beq k n) eqn:E; [apply beq_eq in E; intro H; injection H as <-; subst; left; reflexivity|intro H; right; auto]. Qed.
Lemma means_named t l : means t l -> Forall fine l -> named (Some t).
Proof.
  intros [Hw H] Hl. split; [exact Hw|]. intros k v Hk E. rewrite (H k Hk) in E. apply assoc_in in E. rewrite Forall_forall in Hl.
  destruct (Hl _ E) as (A & B0 & C). auto.
Qed.
Definition name_okb (n : bytes) : bool :=
  match n with c :: r => is_upper c && forallb (fun x => is_upper x || is_digit x || (x == "_"%char)) r | [] => false end.
Lemma name_ok n : name_okb n = true -> valid_name n.
Proof.
  destruct n as [|c r]; [discriminate|]. cbn [name_okb]. rewrite andb_true_iff. intros [H1 H2]. exists c, r. split; [reflexivity|]. split; [apply letters_spec; exact H1|].
  apply Forall_forall. intros x Hx. apply more_spec. rewrite forallb_forall in H2. auto.
Qed.
Definition asciib (x : bytes) : bool := forallb (fun c => N.ltb (nb c) 128 && negb (c == NUL)) x.
Lemma ascii_text x : asciib x = true -> no_nul x /\ utf8 x.
Proof.
  unfold asciib. rewrite forallb_forall. intro H. split.
  - intro Hi. apply H in Hi. discriminate Hi.
  - apply utf8_ascii. apply Forall_forall. intros c Hc. apply H in Hc. apply andb_true_iff in Hc. apply N.ltb_lt. apply Hc.
Qed.
Lemma fine_ascii k x : name_okb k = true -> asciib x = true -> fine (k, x).
Proof. intros H1 H2. split; [apply name_ok; exact H1|apply ascii_text; exact H2]. Qed.
Lemma fine_text k x : name_okb k = true -> no_nul x -> utf8 x -> fine (k, x).
Proof. intros H1 H2 H3. split; [apply name_ok; exact H1|split; assumption]. Qed.
Lemma digits_text k : no_nul (Content.dec (N.of_nat k)) /\ utf8 (Content.dec (N.of_nat k)).
Proof.
  split; [|apply Utf8Text.utf8_ok, BlockUtf8.ok_dec]. destruct (BlockOut.dec_decimal k) as (_ & H & _). intro X. rewrite Forall_forall in H. apply H in X. discriminate X.
Qed.

Section Recipes.
Variables (src : bytes) (c : ctx) (answer : option bytes -> option bytes).
Hypothesis parsed : settings_parse src = Ok (Datatypes.inl (c_st c)).
Hypothesis text8 : utf8 src.
Hypothesis names : nameable c answer.
Lemma look_text k : no_nul k -> no_nul (look_str c k) /\ utf8 (look_str c k).
Proof.
  intro Hk. unfold look_str, look. destruct (trie_lookup (s_settings (c_st c)) k) as [v|] eqn:E; [|apply (@ascii_text []); reflexivity].
  destruct (@ConfigUtf8.settings_utf8 src (c_st c) (proj1 (Utf8Text.utf8_ok src) text8) parsed) as (_ & U & _).
  split; [exact (P_BlogcCmd.fb_values (P_BlogcCmd.settings_parsed parsed) Hk E)|apply Utf8Text.utf8_ok; exact (SourceUtf8.tall_lookup U E)].
Qed.
Lemma tag_text tags t : s_tags (c_st c) = Some tags -> In t tags -> no_nul t /\ utf8 t.
Proof.
  intros E Hi. destruct (@ConfigUtf8.settings_utf8 src (c_st c) (proj1 (Utf8Text.utf8_ok src) text8) parsed) as (_ & _ & _ & _ & _ & U).
  pose proof (P_BlogcCmd.fb_lists (P_BlogcCmd.settings_parsed parsed) (or_intror (or_intror (or_intror E)))) as N.
  rewrite Forall_forall in N. split; [apply N; exact Hi|]. pose proof (U _ E) as U'. rewrite Forall_forall in U'. apply Utf8Text.utf8_ok, U'. exact Hi.
Qed.
Lemma fine_look k s : name_okb k = true -> no_nulb s = true -> fine (k, look_str c s).
Proof. intros H1 H2. destruct (@look_text s (proj1 (no_nulb_spec s) H2)). apply fine_text; assumption. Qed.
Lemma fine_order k o : order_vars c k o -> Forall fine o.
Proof. intros (s & a & _ & _ & ->). destruct s, a; cbn [Bool.eqb app]; repeat constructor; try (apply name_ok; reflexivity); apply ascii_text; reflexivity. Qed.
Lemma fine_first k : no_nulb k = true -> Forall fine (first_page c k).
Proof. intro Hk. unfold first_page. destruct (Z.leb _ _); constructor; [apply fine_ascii; reflexivity|]. constructor; [apply fine_look; [reflexivity|exact Hk]|constructor]. Qed.
Lemma fine_html rule type : asciib rule = true -> asciib type = true -> Forall fine (html_kind c rule type).
Proof. intros H1 H2. constructor; [apply fine_ascii; [reflexivity|exact H1]|]. constructor; [apply fine_ascii; [reflexivity|exact H2]|]. constructor; [apply fine_look; reflexivity|constructor]. Qed.
Lemma fine_feed rule : asciib rule = true -> Forall fine (feed_kind rule).
Proof. intros H1. constructor; [apply fine_ascii; [reflexivity|exact H1]|]. constructor; [apply fine_ascii; reflexivity|]. constructor; [apply fine_ascii; reflexivity|constructor]. Qed.
Lemma fine_numbered k : Forall fine (numbered c k).
Proof. destruct (digits_text k). constructor; [apply fine_text; [reflexivity|assumption|assumption]|]. constructor; [apply fine_look; reflexivity|constructor]. Qed.
Lemma fine_slug f : In (Some f) (c_posts c ++ c_pages c) -> Forall fine (slug_of f).
Proof. intro Hi. unfold slug_of. destruct (f_slug f) as [s|] eqn:E; [|constructor]. destruct (na_slugs names Hi E). constructor; [apply fine_text; [reflexivity|assumption|assumption]|constructor]. Qed.
Lemma fine_tag tags t : s_tags (c_st c) = Some tags -> In t tags -> Forall fine [(B "FILTER_TAG", t)].
Proof. intros E Hi. destruct (tag_text E Hi). constructor; [apply fine_text; [reflexivity|assumption|assumption]|constructor]. Qed.

Record recipe_ok (gv lv : option (trie bytes)) (entry : option fctx) (template : fctx) (sources : list (option fctx)) : Prop := RecipeOk
  { ro_gv : named gv; ro_lv : named lv; ro_entry : entry = None \/ entry = c_entry c; ro_template : template = c_main c \/ template = c_atom c;
    ro_sources : Forall (fun s => In s (c_posts c ++ c_pages c)) sources }.
Lemma skipn_in {A} i (l : list A) x : In x (skipn i l) -> In x l.
Proof. revert l; induction i as [|i IH]; intros [|y l]; cbn [skipn]; intro H; [destruct H|exact H|destruct H|right; auto]. Qed.
Ltac fines := repeat match goal with |- Forall fine (_ ++ _) => apply Forall_app; split | |- Forall fine [(B "FILTER_TAG", _)] => eapply fine_tag; eassumption | |- Forall fine (_ :: _) => constructor end;
  first [apply fine_first; reflexivity|eapply fine_order; eassumption|apply fine_html; reflexivity|apply fine_feed; reflexivity|apply fine_numbered
        |apply fine_ascii; reflexivity|apply Forall_nil].
Lemma recipe_is_ok rule n gv lv listing entry template sources first :
  recipe c rule n (JBlogc gv lv listing entry template sources first) -> recipe_ok gv lv entry template sources.
Proof.
  assert (P : Forall (fun s => In s (c_posts c ++ c_pages c)) (c_posts c)) by (apply Forall_forall; intros s Hs; apply in_app_iff; auto).
  intro R. inversion R; subst; constructor; auto; try exact I;
    try (match goal with H : means ?v ?l |- named (Some ?v) => eapply means_named; [exact H|]; fines end).
  - eapply means_named; [eassumption|]. apply fine_slug. apply in_app_iff. left. eapply nth_error_In. eassumption.
  - apply Forall_forall. intros s Hs. apply in_app_iff. left. eapply skipn_in. exact Hs.
  - eapply means_named; [eassumption|]. apply fine_slug. apply in_app_iff. right. eapply nth_error_In. eassumption.
  - apply Forall_forall. intros s Hs. apply in_app_iff. right. eapply skipn_in. exact Hs.
Qed.
End Recipes.

Section Site.
Variable W : Type.
Variable stat : W -> bytes -> option (Z * Z).
Variable file : W -> bytes -> option bytes.
Variable text : bytes -> option bytes.
Variable mktime : tm -> tm.
Variable strftime : option bytes -> bytes -> tm -> option bytes.
Variable funcs : W -> list (bytes * (vars -> vars)).
Variable sfuel rfuel : nat.
Variable mkdir fopen : W -> bytes -> bool.
Variable version : bytes.
Variable now : W -> Prop.
Variable command : W -> bytes -> bytes -> W * cmd_result.
Variable cp : W -> fctx -> fctx -> W * nat.
Notation runs_blogc := (runs_blogc stat file text mktime strftime funcs sfuel rfuel mkdir fopen version now).
Notation copies := (copies stat file now).
Notation made_by := (made_by file text mktime strftime funcs sfuel version).
Notation right := (right file text mktime strftime funcs sfuel version).
Notation honest := (honest stat file text mktime strftime funcs sfuel version).

Lemma source_input c f : In (Some f) (c_posts c ++ c_pages c) -> In f (inputs c).
Proof.
  intro H. unfold inputs. apply in_app_iff in H. apply in_app_iff. right. apply in_app_iff. right. apply in_app_iff.
  destruct H as [H|H]; [left; apply somes_in; exact H|right]. apply in_app_iff. left. apply somes_in. exact H.
Qed.
Lemma entry_input c e : c_entry c = Some e -> In e (inputs c).
Proof. intro H. unfold inputs. apply in_app_iff. right. apply in_app_iff. left. rewrite H. left. reflexivity. Qed.
Lemma copy_input c f : In f (c_copy c) -> In f (inputs c).
Proof. intro H. unfold inputs. do 4 (apply in_app_iff; right). exact H. Qed.
Lemma contents_same (w w' : W) p : file w' p = file w p -> contents file text w p = contents file text w' p.
Proof. unfold contents. intros ->. reflexivity. Qed.

Definition same_inputs (c : ctx) (w w' : W) : Prop := forall f, In f (inputs c) -> file w' (f_path f) = file w (f_path f).
Lemma page_same c w w' moment gv lv listing entry template sources first o p page : recipe_ok c gv lv entry template sources -> same_inputs c w w' ->
  o_listing o = listing -> o_template o = Some (f_path template) -> o_entries o = (if listing then map f_path (somes [entry]) else []) ->
  Forall2 (fun s x => exists f, s = Some f /\ x = f_path f) (if first : bool then firstn 1 sources else sources) p ->
  P_MainRun.page_of (contents file text w) mktime (strftime (look c (B "locale"))) (funcs moment) sfuel o p page ->
  P_MainRun.page_of (contents file text w') mktime (strftime (look c (B "locale"))) (funcs moment) sfuel o p page.
Proof.
  intros [_ _ Re Rt Rs] Hi H2 H3 H5 H6 H7. eapply page_agree; [| | |exact H7].
  - assert (Rs' : Forall (fun s => In s (c_posts c ++ c_pages c)) (if first then firstn 1 sources else sources)).
    { destruct first; [|exact Rs]. destruct Rs; cbn [firstn]; repeat constructor. assumption. }
    clear - H6 Rs' Hi. induction H6 as [|s x ss xs (f & -> & ->) _ IH]; constructor; inversion Rs'; subst; [|apply IH; assumption].
    apply contents_same, Hi, source_input. assumption.
  - rewrite H5, H2. intros ->. destruct entry as [e|]; cbn [somes flat_map app map]; constructor; [|constructor].
    destruct Re as [Re|Re]; [discriminate|]. apply contents_same, Hi, entry_input. congruence.
  - intros t Et. rewrite H3 in Et. injection Et as <-. apply contents_same, Hi. unfold inputs. apply in_app_iff. left.
    destruct Rt as [->| ->]; [right; left|right; right; left]; reflexivity.
Qed.
(* what is right stays so while the file and the inputs stay as they are *)
Lemma made_by_keeps src c answer w w' path rule n j : settings_parse src = Ok (Datatypes.inl (c_st c)) -> utf8 src -> nameable c answer ->
  recipe c rule n j -> same_inputs c w w' -> file w' path = file w path ->
  made_by c w path j -> made_by c w' path j.
Proof.
  intros E U N R Hi Hp. destruct j as [gv lv listing entry template sources first|s]; cbn [SiteSpec.made_by].
  - intros (o & p & page & at_ & H1 & H2 & H3 & H4 & H5 & H6 & H7 & H8). exists o, p, page, at_. rewrite Hp.
    repeat (split; [assumption|]). split; [|exact H8]. eapply page_same; try eassumption. exact (recipe_is_ok E U N R).
  - assert (X : In s (c_copy c)) by (inversion R; assumption). rewrite Hp, (Hi s (copy_input X)). auto.
Qed.
(* a step that writes one file of the site *)
Lemma step_honest src c answer w w' rule n d : settings_parse src = Ok (Datatypes.inl (c_st c)) -> utf8 src -> nameable c answer -> apart c answer ->
  product c answer rule n d ->
  (forall p, p <> absolute c n -> file w' p = file w p) ->
  (forall p, p <> absolute c n -> ~ parent p (absolute c n) -> stat w' p = stat w p) ->
  (file w' (absolute c n) = file w (absolute c n) /\ stat w' (absolute c n) = stat w (absolute c n) \/ right c answer w' (absolute c n)) ->
  honest c answer w -> honest c answer w'.
Proof.
  intros E U N A Hp Hf Hs Ho H rule' n' d' Hp' Hu.
  assert (Hi : forall f, In f (inputs c) -> file w' (f_path f) = file w (f_path f)).
  { intros f Hx. apply Hf. intro X. exact (ap_inputs A Hp Hx (eq_sym X)). }
  assert (K : file w' (absolute c n') = file w (absolute c n') -> stat w' (absolute c n') = stat w (absolute c n') -> right c answer w' (absolute c n')).
  { intros K1 K2. destruct (H rule' n' d' Hp') as (r & m & dd & j & R1 & R2 & R3 & R4).
    - destruct Hu as (t & Ht & Hu). rewrite K2 in Ht. exists t. auto.
    - exists r, m, dd, j. repeat (split; [assumption|]). eapply made_by_keeps; eassumption. }
  destruct (bytes_dec (absolute c n') (absolute c n)) as [X|X].
  - destruct Ho as [[O1 O2]|O]; [apply K; rewrite X; assumption|rewrite X; exact O].
  - apply K; [apply Hf; exact X|]. apply Hs; [exact X|]. exact (ap_folders A Hp' Hp).
Qed.

Lemma leaves_quiet l p old : Forall (fun e => opened e = false) l -> leaves l p old = old.
Proof. induction 1 as [|e l H _ IH]; [reflexivity|]. destruct e; try discriminate; exact IH. Qed.
Lemma leaves_app l l' p old : leaves (l ++ l') p old = leaves l' p (leaves l p old).
Proof. revert old. induction l as [|e l IH]; intro old; [reflexivity|]. destruct e; cbn [app leaves]; apply IH. Qed.
Lemma forall2_len {A C} (R : A -> C -> Prop) l m : Forall2 R l m -> length l = length m.
Proof. induction 1; cbn [length]; congruence. Qed.
Lemma paths_are l p : paths l = Ok p -> Forall2 (fun s x => exists f, s = Some f /\ x = f_path f) l p.
Proof.
  revert p. induction l as [|[f|] l IH]; intros p H; cbn [paths] in H; [injection H as <-; constructor| |discriminate].
  destruct (paths l) as [q| |]; cbn [rbind] in H; try discriminate. injection H as <-. constructor; [eauto|]. apply IH. reflexivity.
Qed.

Lemma status_0 n out err : exec_blogc_status (CmdDone n out err) = 0 -> n = 0.
Proof. cbn [exec_blogc_status]. destruct (Nat.eqb n 127); [discriminate|auto]. Qed.
Lemma blogc_step src bin c answer w rule n d gv lv listing entry template sources first p : settings_parse src = Ok (Datatypes.inl (c_st c)) -> utf8 src -> tags_ok (c_st c) ->
  P_BlogcCmd.word (e_blogc (c_exec c)) bin -> nameable c answer -> apart c answer -> runs_blogc c bin command -> now w ->
  product c answer rule n d -> recipe c rule n (JBlogc gv lv listing entry template sources first) -> paths (if first then firstn 1 sources else sources) = Ok p ->
  let (cmd, input) := exec_blogc (c_exec c) gv lv listing (match entry with Some e => Some (f_path e) | None => None end) (f_path template) (absolute c n) p first in
  let (w', r) := command w cmd input in
  (honest c answer w -> honest c answer w') /\ same_inputs c w w' /\ now w' /\ later stat w w' /\ (exec_blogc_status r = 0 -> written stat c w' (absolute c n)).
Proof.
  intros E U T Hb N A Run Hnow Hp K Eq.
  destruct (recipe_is_ok E U N K) as [Rg Rl Re Rt Rs]. apply paths_are in Eq.
  assert (Rs' : Forall (fun s => In s (c_posts c ++ c_pages c)) (if first then firstn 1 sources else sources)).
  { destruct first; [|exact Rs]. destruct Rs; cbn [firstn]; repeat constructor. assumption. }
  assert (Lp : Forall P_BlogcCmd.line_path p).
  { clear - Eq Rs' N. induction Eq as [|s x ss xs (f & -> & ->) _ IH]; constructor; inversion Rs'; subst; [|apply IH; assumption]. apply (na_sources N). assumption. }
  assert (L1 : (if first then firstn 1 p else p) = p).
  { destruct first; [|reflexivity]. pose proof (forall2_len Eq) as El. destruct sources as [|s1 sources]; cbn [firstn length] in El; destruct p as [|x1 [|x2 p]]; try discriminate; reflexivity. }
  destruct (na_out N Hp) as [O1 O2].
  assert (Nt : no_nul (f_path template)) by (destruct Rt as [->| ->]; [apply (na_main N)|apply (na_atom N)]).
  assert (Ne : P_BlogcCmd.opt_ok (match entry with Some e => Some (f_path e) | None => None end)).
  { destruct entry as [e|]; [|exact I]. destruct Re as [Re|Re]; [discriminate|]. apply (na_entry N). congruence. }
  destruct (@C65_end_to_end_partial (contents file text w) mktime (strftime (look c (B "locale"))) (funcs w) sfuel rfuel (mkdir w) (fopen w) (fun _ t => t) version
              src (c_st c) bin (c_exec c) gv lv listing _ _ _ p first E eq_refl U T Hb Rg Rl Ne Nt O1 Lp) as (env & args & o & X1 & X2 & X3 & X4 & X5 & X6 & X7 & X8 & X9).
  destruct (exec_blogc _ _ _ _ _ _ _ _ _) as [cmd input]. cbn [fst snd] in *.
  assert (Ee : env = words_of (look c (B "locale"))) by exact X2. rewrite Ee in X1. pose proof (Run w cmd input _ _ Hnow X1) as R.
  destruct (command w cmd input) as [w' r]. destruct R as (Nw & Lt & R).
  cut ((honest c answer w -> honest c answer w') /\ same_inputs c w w' /\ (exec_blogc_status r = 0 -> written stat c w' (absolute c n))).
  { intros (G1 & G2 & G3). auto. }
  rewrite L1 in X3.
  assert (Q : (forall q, q <> absolute c n -> file w' q = file w q) -> same_inputs c w w').
  { intros Hf f Hx. apply Hf. intro X. exact (ap_inputs A Hp Hx (eq_sym X)). }
  destruct R as [(l & m & ro & re & R1 & R2 & R3 & R4 & R5)|(R1 & R2 & R3)].
  2:{ split; [intro H|split; [intros f _; apply R1|intro St; exfalso; destruct r as [|m ro re]; [discriminate|apply status_0 in St; subst; exact (R3 _ _ eq_refl)]]].
      eapply step_honest; try eassumption; [intros q _; apply R1|intros q _ _; apply R2|]. left. split; [apply R1|apply R2]. }
  subst r. rewrite X3 in R1. apply (compile_outcome version) in R1. destruct R1 as [m Hm|q t Hq|page ef m Hpr Hin Hpg Hw].
  - assert (F : forall q, file w' q = file w q) by (intro q; rewrite R3; reflexivity).
    assert (S : forall q, stat w' q = stat w q) by (intro q; apply R4; intros e [<-|[]]; discriminate).
    split; [intro H|split; [intros f _; apply F|intro St; apply status_0 in St; congruence]]. eapply step_honest; try eassumption; [intros q _; apply F|intros q _ _; apply S|]. left. split; [apply F|apply S].
  - congruence.
  - assert (Dg : o_debug o = false) by apply X4. rewrite Dg in R3, R4. cbn [app] in R3, R4.
    destruct Hw as [Hw|f ef Hf Hf' Hd|f ef m Hf Hf' Hd Hn].
    + destruct Hw as [Hw|Hw]; congruence.
    + rewrite X7 in Hf. injection Hf as <-.
      assert (D : Forall (fun e => opened e = false) ef) by (eapply Forall_impl; [|exact Hd]; intros e (dd & -> & _); reflexivity).
      assert (F : forall q, file w' q = if beq (absolute c n) q then Some page else file w q).
      { intro q. rewrite R3, leaves_app, (leaves_quiet _ _ D). cbn [leaves]. destruct (beq (absolute c n) q); reflexivity. }
      assert (F1 : forall q, q <> absolute c n -> file w' q = file w q).
      { intros q Hq. rewrite F. destruct (beq (absolute c n) q) eqn:Eb; [apply beq_eq in Eb; congruence|reflexivity]. }
      split; [intro H|split; [apply Q; exact F1|intros _; apply R5; rewrite Dg; cbn [app]; apply in_app_iff; right; left; reflexivity]]. eapply step_honest; try eassumption.
      * intros q Hq Hq'. apply R4. intros e He. apply in_app_iff in He. destruct He as [He|[<-|[<-|[]]]]; [|intro X; injection X as X; congruence|intro X; injection X as X; congruence].
        rewrite Forall_forall in Hd. destruct (Hd _ He) as (dd & -> & Hpar). intro X. injection X as ->. contradiction.
      * right. exists rule, n, d, (JBlogc gv lv listing entry template sources first). repeat (split; [assumption || reflexivity|]).
        exists o, p, page, w. repeat (split; [assumption|]). split; [rewrite X9; destruct entry; reflexivity|]. split; [exact Eq|]. split.
        -- eapply page_same; try eassumption; [exact (recipe_is_ok E U N K)|apply Q; exact F1|rewrite X9; destruct entry; reflexivity].
        -- rewrite F, beq_refl. reflexivity.
    + rewrite X7 in Hf. injection Hf as <-.
      assert (D : Forall (fun e => opened e = false) (ef ++ [EError])).
      { apply Forall_app. split; [|repeat constructor]. eapply Forall_impl; [|exact Hd]. intros e (dd & -> & _). reflexivity. }
      assert (F : forall q, file w' q = file w q) by (intro q; rewrite R3; apply leaves_quiet; exact D).
      assert (S : forall q, ~ parent q (absolute c n) -> stat w' q = stat w q).
      { intros q Hq. apply R4. intros e He. apply in_app_iff in He. destruct He as [He|[<-|[]]]; [|discriminate].
        rewrite Forall_forall in Hd. destruct (Hd _ He) as (dd & -> & Hpar). intro X. injection X as ->. contradiction. }
      split; [intro H|split; [intros f _; apply F|intro St; apply status_0 in St; congruence]]. eapply step_honest; try eassumption; [intros q _; apply F|intros q _; apply S|]. left. split; [apply F|apply S].
      exact (ap_folders A Hp Hp).
Qed.
Lemma copy_step src c answer w s o : settings_parse src = Ok (Datatypes.inl (c_st c)) -> utf8 src -> nameable c answer -> apart c answer -> copies c cp -> now w ->
  s_copy (c_st c) <> None -> In s (c_copy c) -> f_path o = absolute c (c_short_output c ++ B "/" ++ f_short s) ->
  let (w', n) := cp w s o in
  (honest c answer w -> honest c answer w') /\ same_inputs c w w' /\ now w' /\ later stat w w' /\ (n = 0 -> written stat c w' (f_path o)).
Proof.
  intros E U N A Cp Hnow Hs Hi Eo. pose proof (@P_copy c answer s Hs Hi) as Hp. pose proof (Cp w s o Hnow) as R. destruct (cp w s o) as [w' n].
  destruct R as (Nw & Lt & R1 & R2 & R3 & R4). rewrite Eo in *.
  assert (Q : same_inputs c w w').
  { intros f Hx. apply R1. intro X. exact (ap_inputs A Hp Hx (eq_sym X)). }
  split; [intro H|split; [exact Q|split; [exact Nw|split; [exact Lt|intro; apply R3; assumption]]]]. eapply step_honest; try eassumption. destruct (Nat.eq_dec n 0) as [->|Hn].
  - right. destruct (R3 eq_refl) as (R5 & R6 & _). do 2 eexists. exists [c_settings c; s], (JCopy s). split; [exact Hp|]. split; [constructor; exact Hi|]. split; [reflexivity|].
    cbn [SiteSpec.made_by]. rewrite (Q s (copy_input Hi)), R5. auto.
  - left. apply R4. exact Hn.
Qed.

(* the worlds that come up while the site in [w] is built *)
Definition meanwhile (c : ctx) (w x : W) : Prop := same_inputs c w x /\ now x.
Lemma tools_keep : forall src bin c answer w,
  settings_parse src = Ok (Datatypes.inl (c_st c)) -> utf8 src -> tags_ok (c_st c) -> P_BlogcCmd.word (e_blogc (c_exec c)) bin ->
  nameable c answer -> apart c answer -> site_ok c ->
  runs_blogc c bin command -> copies c cp -> answers command (meanwhile c w) c answer ->
  steady command cp (meanwhile c w) c answer /\ physical stat command cp (meanwhile c w) c answer /\
  (forall x cmd input, honest c answer x /\ meanwhile c w x -> intended c answer cmd input ->
    honest c answer (fst (command x cmd input)) /\ meanwhile c w (fst (command x cmd input))) /\
  (forall x s o, honest c answer x /\ meanwhile c w x -> s_copy (c_st c) <> None -> In s (c_copy c) -> f_path o = absolute c (c_short_output c ++ B "/" ++ f_short s) ->
    honest c answer (fst (cp x s o)) /\ meanwhile c w (fst (cp x s o))).
Proof.
  intros src bin c answer w E U T Hb N A Ok_ Run Cp An.
  assert (B1 : forall x cmd input, meanwhile c w x -> intended c answer cmd input ->
    (honest c answer x -> honest c answer (fst (command x cmd input))) /\ meanwhile c w (fst (command x cmd input)) /\ later stat x (fst (command x cmd input))).
  { intros x cmd input [Q1 Q2] [rule n d gv lv listing entry template sources first p Hp K Eq].
    pose proof (blogc_step E U T Hb N A Run Q2 Hp K Eq) as G. destruct (exec_blogc _ _ _ _ _ _ _ _ _) as [cmd0 input0]. cbn [fst snd].
    destruct (command x cmd0 input0) as [x' r']. destruct G as (G1 & G2 & G3 & G4 & _). cbn [fst]. split; [exact G1|]. split; [|exact G4].
    split; [|exact G3]. intros f Hf. rewrite (G2 f Hf). apply Q1. exact Hf. }
  assert (B2 : forall x s o, meanwhile c w x -> s_copy (c_st c) <> None -> In s (c_copy c) -> f_path o = absolute c (c_short_output c ++ B "/" ++ f_short s) ->
    (honest c answer x -> honest c answer (fst (cp x s o))) /\ meanwhile c w (fst (cp x s o)) /\ later stat x (fst (cp x s o)) /\ (snd (cp x s o) = 0 -> written stat c (fst (cp x s o)) (f_path o))).
  { intros x s o [Q1 Q2] Hs Hi Ho. pose proof (copy_step E U N A Cp Q2 Hs Hi Ho) as G. destruct (cp x s o) as [x' k]. destruct G as (G1 & G2 & G3 & G4 & G5).
    cbn [fst snd]. split; [exact G1|]. split; [|split; [exact G4|exact G5]]. split; [|exact G3]. intros f Hf. rewrite (G2 f Hf). apply Q1. exact Hf. }
  assert (Mk : forall n s, makes c answer n (JCopy s) -> s_copy (c_st c) <> None /\ In s (c_copy c) /\ n = c_short_output c ++ B "/" ++ f_short s).
  { intros n s (rule & d & Hp & Hr'). inversion Hr' as [ | | | | | | | |s' Hs']. subst. split; [inversion Hp; assumption|auto]. }
  assert (Sd : steady command cp (meanwhile c w) c answer).
  { split.
    - intros x cmd input Q2 Hi. apply (B1 x cmd input Q2 Hi).
    - intros n s o x Q2 M Ho. destruct (Mk n s M) as (M1 & M2 & ->). apply (B2 x s o Q2 M1 M2 Ho). }
  assert (Ph : physical stat command cp (meanwhile c w) c answer).
  { split.
    - intros x cmd input Q2 Hi. apply (B1 x cmd input Q2 Hi).
    - intros n s o x Q2 M Ho. destruct (Mk n s M) as (M1 & M2 & ->). apply (B2 x s o Q2 M1 M2 Ho).
    - intros n gv lv listing entry template o sources first x x' [_ Q2] (rule & d & Hp & Kr) Ho Er. unfold run_blogc in Er. destruct (paths _) as [p| |] eqn:Eq; try discriminate.
      pose proof (blogc_step E U T Hb N A Run Q2 Hp Kr Eq) as G. rewrite <- Ho in G. destruct (exec_blogc _ _ _ _ _ _ _ _ _) as [cmd input].
      destruct (command x cmd input) as [x1 r1]. injection Er as -> Er. destruct G as (_ & _ & _ & _ & G). apply G. exact Er.
    - intros n s o x x' Q2 M Ho Er. destruct (Mk n s M) as (M1 & M2 & ->). destruct (B2 x s o Q2 M1 M2 Ho) as (_ & _ & _ & G). rewrite Er in G. apply G. reflexivity. }
  split; [exact Sd|]. split; [exact Ph|]. split.
  - intros x cmd input [Q1 Q2] Hi. destruct (B1 x cmd input Q2 Hi) as (G1 & G2 & _). auto.
  - intros x s o [Q1 Q2] Hs Hi Ho. destruct (B2 x s o Q2 Hs Hi Ho) as (G1 & G2 & _). auto.
Qed.
(* Whatever blogc-make's run ends with, no file is out of date without the times showing it,
   if that was so before, and the inputs are as they were; if it succeeds, every file of the
   site holds what it should. *)
Theorem C89_partial : forall src bin c answer w w' r,
  settings_parse src = Ok (Datatypes.inl (c_st c)) -> utf8 src -> tags_ok (c_st c) -> P_BlogcCmd.word (e_blogc (c_exec c)) bin ->
  nameable c answer -> apart c answer -> site_ok c ->
  runs_blogc c bin command -> copies c cp -> answers command (meanwhile c w) c answer -> now w ->
  honest c answer w -> all_exec stat command cp c w = (w', r) ->
  honest c answer w' /\ (forall f, In f (inputs c) -> file w' (f_path f) = file w (f_path f)) /\
  (r = Ok 0 -> forall rule n d, product c answer rule n d -> up_to_date stat w' (absolute c n) d /\ right c answer w' (absolute c n)).
Proof.
  intros src bin c answer w w' r E U T Hb N A Ok_ Run Cp An Hnow H Hr.
  destruct (tools_keep E U T Hb N A Ok_ Run Cp An) as (Sd & Ph & B1 & B2).
  assert (K : honest c answer w' /\ meanwhile c w w').
  { replace w' with (fst (all_exec stat command cp c w)) by (rewrite Hr; reflexivity).
    apply C68_commands with (answer := answer) (good := meanwhile c w) (I := fun x => honest c answer x /\ meanwhile c w x);
      [exact Ok_|exact An|intros x [_ X]; exact X|exact B1|exact B2|split; [exact H|split; [intros f _; reflexivity|exact Hnow]]]. }
  destruct K as [K1 [K2 _]]. split; [exact K1|]. split; [exact K2|]. intros -> rule n d Hp.
  assert (X : up_to_date stat w' (absolute c n) d) by exact (proj2 (C67_up_to_date Sd Ph Ok_ An (conj (fun f _ => eq_refl) Hnow) Hr) _ _ _ Hp).
  split; [exact X|]. eapply K1; [exact Hp|exact X].
Qed.
(* in particular when there was no output before *)
Theorem C89_fresh : forall c answer w, (forall rule n d, product c answer rule n d -> stat w (absolute c n) = None) -> honest c answer w.
Proof. intros c answer w H rule n d Hp (t & Ht & _). rewrite (H _ _ _ Hp) in Ht. discriminate. Qed.
(* and a file that only one product of the site goes to is made by its recipe *)
Theorem C89_own : forall c answer w rule n d, product c answer rule n d ->
  (forall rule' n' d', product c answer rule' n' d' -> absolute c n' = absolute c n -> rule' = rule /\ n' = n) ->
  right c answer w (absolute c n) -> exists j, recipe c rule n j /\ made_by c w (absolute c n) j.
Proof.
  intros c answer w rule n d Hp Hu (rule' & n' & d' & j & H1 & H2 & H3 & H4). destruct (Hu _ _ _ H1 H3) as [-> ->]. eauto.
Qed.
End Site.
Print Assumptions C89_partial.
Print Assumptions C89_fresh.
Print Assumptions C89_own.

(* ---- blogc reads only the files it is told to ---- *)
Definition told (version : bytes) (args : list bytes) (stdin : bytes) : list bytes :=
  match parse_args args (no_opts (trie_insert trie_new (B "BLOGC_VERSION") version)) with
  | Ok (Datatypes.inl o) =>
      o_sources o ++ o_entries o ++ (match o_template o with Some t => [t] | None => [] end) ++
      (if o_stdin o then match filelist_parse stdin with Ok l => map snd l | _ => [] end else [])
  | _ => []
  end.
Section Told.
Variables (c1 c2 : bytes -> option bytes) (mktime : tm -> tm) (strftime : bytes -> tm -> option bytes).
Variable funcs : list (bytes * (vars -> vars)).
Variable sfuel rfuel : nat.
Variable mkdir fopen : bytes -> bool.
Variable stored : bytes -> bytes -> bytes.
Variable version : bytes.
Lemma entries_agree conf l : Forall (fun f => c1 f = c2 f) l -> load_entries c1 sfuel conf l = load_entries c2 sfuel conf l.
Proof.
  induction 1 as [|f l H _ IH]; [reflexivity|]. cbn [load_entries]. rewrite IH. destruct f as [|x f]; [reflexivity|]. rewrite (from_file_agree sfuel conf H). reflexivity.
Qed.
Lemma compile_agree o l : Forall (fun f => c1 f = c2 f) l -> Forall (fun f => c1 f = c2 f) (o_entries o) -> (forall t, o_template o = Some t -> c1 t = c2 t) ->
  compile c1 mktime strftime funcs sfuel rfuel mkdir fopen stored o l = compile c2 mktime strftime funcs sfuel rfuel mkdir fopen stored o l.
Proof.
  intros Hl He Ht. unfold compile. rewrite (files_agree mktime strftime sfuel (o_config o) Hl). destruct (_ && _); [reflexivity|]. destruct (_ && _); [reflexivity|].
  destruct (source_parse_from_files c2 _ _ _ _ _) as [[[s config]|e]| |]; cbn [rbind]; try reflexivity. rewrite (entries_agree config He).
  destruct (if o_listing o then _ else _) as [[entries|]| |]; cbn [rbind]; try reflexivity. destruct (o_print o); [reflexivity|].
  destruct (o_template o) as [t|]; [|reflexivity]. rewrite (Ht t eq_refl). reflexivity.
Qed.
(* Two disks on which the named files are the same give the same output. *)
Theorem C90_told : forall args stdin, (forall f, In f (told version args stdin) -> c1 f = c2 f) ->
  blogc_main c1 mktime strftime funcs sfuel rfuel mkdir fopen stored version args stdin = blogc_main c2 mktime strftime funcs sfuel rfuel mkdir fopen stored version args stdin.
Proof.
  intros args stdin H. unfold blogc_main, told in *. unfold no_opts in H. destruct (parse_args _ _) as [[o|s]| |]; cbn [rbind]; try reflexivity.
  assert (A : Forall (fun f => c1 f = c2 f) (o_sources o)) by (apply Forall_forall; intros f Hf; apply H; apply in_app_iff; auto).
  assert (E : Forall (fun f => c1 f = c2 f) (o_entries o)) by (apply Forall_forall; intros f Hf; apply H; rewrite !in_app_iff; auto).
  assert (T : forall t, o_template o = Some t -> c1 t = c2 t) by (intros t Et; apply H; rewrite Et, !in_app_iff; right; right; left; left; reflexivity).
  destruct (o_stdin o); [|apply compile_agree; assumption]. destruct (filelist_parse stdin) as [l| |]; cbn [rbind]; try reflexivity.
  rewrite (@compile_agree o (o_sources o ++ map snd l)); [reflexivity| |exact E|exact T].
  apply Forall_app. split; [exact A|]. apply Forall_forall. intros f Hf. apply H. rewrite !in_app_iff. auto.
Qed.
End Told.
Print Assumptions C90_told.

(* ---- a site on a small disk with a clock ---- *)
Definition sdisk : Type := (list (bytes * (Z * bytes)) * Z)%type.
Definition s_find (w : sdisk) (p : bytes) : option (Z * bytes) := match find (fun x => beq (fst x) p) (fst w) with Some x => Some (snd x) | None => None end.
Definition s_file (w : sdisk) (p : bytes) : option bytes := option_map snd (s_find w p).
Definition s_stat (w : sdisk) (p : bytes) : option (Z * Z) := option_map (fun x => (fst x, 0%Z)) (s_find w p).
Definition s_put (w : sdisk) (p b : bytes) : sdisk := ((p, (snd w, b)) :: fst w, (snd w + 1)%Z).
Fixpoint s_effects (l : list effect) (w : sdisk) : sdisk :=
  match l with
  | [] => w
  | EOpen f :: r => s_effects r (s_put w f [])
  | EWrite f t :: r => s_effects r (match s_file w f with Some b => s_put w f (b ++ t) | None => w end)
  | _ :: r => s_effects r w
  end.
Definition s_printed (l : list effect) : option bytes :=
  match flat_map (fun e => match e with EPrint t => t | _ => [] end) l with [] => None | t => Some t end.
Definition s_call (ws : list bytes) : option (option bytes * list bytes) :=
  match ws with
  | [] => None
  | b :: args =>
      if beq b (B "blogc") then Some (None, args)
      else if Utils.starts_with b (B "LC_ALL=")
           then match args with b2 :: args2 => if beq b2 (B "blogc") then Some (Some (skipn 7 b), args2) else None | [] => None end
           else None
  end.
Definition s_blogc (w : sdisk) := blogc_main (contents s_file Some w) (fun t => t) (fun _ _ => None) [] 400 400 (fun _ => true) (fun _ => true) (fun _ t => t) (B "1").
Definition s_command (w : sdisk) (cmd input : bytes) : sdisk * cmd_result :=
  match sh_words cmd with
  | Some ws => match s_call ws with
               | Some (_, args) => match s_blogc w args input with Ok (l, n) => (s_effects l w, CmdDone n (s_printed l) None) | _ => (w, CmdError) end
               | None => (w, CmdError)
               end
  | None => (w, CmdError)
  end.
Definition s_cp (w : sdisk) (s o : fctx) : sdisk * nat := match s_file w (f_path s) with Some b => (s_put w (f_path o) b, 0) | None => (w, 1) end.
(* the clock shows at least [T] *)
Section Clock.
Variable T : Z.
Definition s_now_at (w : sdisk) : Prop := Forall (fun x => fst (snd x) <= snd w)%Z (fst w) /\ (T <= snd w)%Z.
Notation s_now := s_now_at.

Lemma find_put w p b q : s_find (s_put w p b) q = if beq p q then Some (snd w, b) else s_find w q.
Proof. unfold s_find, s_put. cbn [fst snd find]. destruct (beq p q); reflexivity. Qed.
Lemma file_put w p b q : s_file (s_put w p b) q = if beq p q then Some b else s_file w q.
Proof. unfold s_file. rewrite find_put. destruct (beq p q); reflexivity. Qed.
Lemma stat_put w p b q : s_stat (s_put w p b) q = if beq p q then Some (snd w, 0%Z) else s_stat w q.
Proof. unfold s_stat. rewrite find_put. destruct (beq p q); reflexivity. Qed.
Lemma find_time w p x : s_now w -> s_find w p = Some x -> (fst x <= snd w)%Z.
Proof.
  intros [H _] E. unfold s_find in E. destruct (find _ (fst w)) as [y|] eqn:F; [|discriminate]. injection E as <-. apply find_some in F. rewrite Forall_forall in H. apply (H y), F.
Qed.
Lemma now_put w p b : s_now w -> s_now (s_put w p b) /\ later s_stat w (s_put w p b).
Proof.
  intro H. split.
  - destruct H as [H1 H2]. split; cbn [s_put fst snd]; [|lia]. constructor; [cbn; lia|]. eapply Forall_impl; [|exact H1]. cbn. intros. lia.
  - intros q t E. rewrite stat_put. destruct (beq p q); [|exists t; split; [exact E|apply not_later_refl]]. eexists. split; [reflexivity|].
    unfold s_stat in E. destruct (s_find w q) as [x|] eqn:F; [|discriminate]. injection E as <-. pose proof (find_time H F). unfold not_later. cbn. lia.
Qed.
Definition effects_ok (l : list effect) (w w' : sdisk) : Prop :=
  s_now w' /\ later s_stat w w' /\ (forall p, s_file w' p = leaves l p (s_file w p)) /\
  (forall p, (forall e, In e l -> touched e <> Some p) -> s_stat w' p = s_stat w p) /\
  (forall p t, s_stat w p = Some t -> (T <= fst t)%Z -> exists t', s_stat w' p = Some t' /\ (T <= fst t')%Z) /\
  (forall p, In (EOpen p) l -> exists t, s_stat w' p = Some t /\ (T <= fst t)%Z).
Lemma effects_spec l : forall w, s_now w -> effects_ok l w (s_effects l w).
Proof.
  unfold effects_ok. induction l as [|e l IH]; intros w H.
  - cbn [s_effects leaves In]. split; [exact H|]. split; [apply later_refl|]. split; [reflexivity|]. split; [reflexivity|]. split; [eauto|intros p []].
  - assert (Skip : s_effects (e :: l) w = s_effects l w -> (forall p old, leaves (e :: l) p old = leaves l p old) -> (forall p, e <> EOpen p) -> effects_ok (e :: l) w (s_effects (e :: l) w)).
    { intros X1 X2 X3. unfold effects_ok. rewrite X1. destruct (IH w H) as (A1 & A2 & A3 & A4 & A5 & A6). split; [exact A1|]. split; [exact A2|].
      split; [intro p; rewrite X2; apply A3|]. split; [intros p Hp; apply A4; intros e' He; apply Hp; right; exact He|]. split; [exact A5|].
      intros p [X|X]; [destruct (X3 p X)|apply A6; exact X]. }
    destruct e; try (apply Skip; [reflexivity|reflexivity|discriminate]); clear Skip.
    + cbn [s_effects]. destruct (now_put f [] H) as [P1 P2]. destruct (IH _ P1) as (A1 & A2 & A3 & A4 & A5 & A6). split; [exact A1|]. split; [eapply later_trans; eassumption|].
      split; [intro p; rewrite A3, file_put; cbn [leaves]; reflexivity|]. split; [|split].
      * intros p Hp. rewrite A4 by (intros e He; apply Hp; right; exact He). rewrite stat_put. destruct (beq f p) eqn:E; [|reflexivity].
        apply beq_eq in E. subst. destruct (Hp _ (or_introl eq_refl) eq_refl).
      * intros p t Et Ht. destruct (P2 p t Et) as (t1 & E1 & L1). apply (A5 p t1 E1). unfold not_later in L1. lia.
      * intros p [E|Hp]; [injection E as <-|apply A6; exact Hp]. apply (A5 f (snd w, 0%Z)); [rewrite stat_put, beq_refl; reflexivity|apply H].
    + cbn [s_effects]. destruct (s_file w f) as [b|] eqn:Ef.
      * destruct (now_put f (b ++ text) H) as [P1 P2]. destruct (IH _ P1) as (A1 & A2 & A3 & A4 & A5 & A6). split; [exact A1|]. split; [eapply later_trans; eassumption|].
        split; [|split; [|split]].
        -- intro p. rewrite A3, file_put. cbn [leaves]. destruct (beq f p) eqn:E; [apply beq_eq in E; subst; rewrite Ef|]; reflexivity.
        -- intros p Hp. rewrite A4 by (intros e He; apply Hp; right; exact He). rewrite stat_put. destruct (beq f p) eqn:E; [|reflexivity].
           apply beq_eq in E. subst. destruct (Hp _ (or_introl eq_refl) eq_refl).
        -- intros p t Et Ht. destruct (P2 p t Et) as (t1 & E1 & L1). apply (A5 p t1 E1). unfold not_later in L1. lia.
        -- intros p [E|Hp]; [discriminate|apply A6; exact Hp].
      * destruct (IH _ H) as (A1 & A2 & A3 & A4 & A5 & A6). split; [exact A1|]. split; [exact A2|]. split; [|split; [|split; [exact A5|]]].
        -- intro p. rewrite A3. cbn [leaves]. destruct (beq f p) eqn:E; [apply beq_eq in E; subst; rewrite Ef|]; reflexivity.
        -- intros p Hp. apply A4. intros e He. apply Hp. right. exact He.
        -- intros p [E|Hp]; [discriminate|apply A6; exact Hp].
Qed.

End Clock.

Lemma call_words locale args : s_call (words_of locale ++ B "blogc" :: args) = Some (locale, args).
Proof.
  destruct locale as [l|]; [|reflexivity]. cbn [words_of app s_call]. replace (beq (B "LC_ALL=" ++ l) (B "blogc")) with false by reflexivity.
  replace (Utils.starts_with (B "LC_ALL=" ++ l) (B "LC_ALL=")) with true by (destruct l; reflexivity). reflexivity.
Qed.
Definition s_text : bytes := B "[global]
AUTHOR_NAME = A
AUTHOR_EMAIL = a@b.c
SITE_TITLE = The site
SITE_TAGLINE = L
BASE_DOMAIN = http://x
[settings]
posts_per_page = 1
atom_posts_per_page = 2
post_prefix = post
[posts]
a
b
[pages]
about
[tags]
x
[copy]
c.css
".
Definition s_settings_of : settings := match settings_parse s_text with Ok (Datatypes.inl st) => st | _ => Settings trie_new trie_new None None None None end.
Definition s_in (n : bytes) (t : Z) (slug : option bytes) : fctx := Fctx (B "/r/" ++ n) n slug (t, 0)%Z true.
(* [t]: the time of the first post *)
Definition s_site_at (t : Z) : ctx :=
  Ctx (Ectx (B "blogc") (B "blogc-runserver") s_settings_of (B "/r/_build") false) (B "/r") (B "_build")
    (s_in (B "main.tmpl") 1%Z None) (s_in (B "atom.tmpl") 1%Z None) false (s_in (B "blogcfile") 2%Z None) None
    [Some (s_in (B "a.txt") t (Some (B "a"))); Some (s_in (B "b.txt") 4%Z (Some (B "b")))]
    [Some (s_in (B "about.txt") 5%Z (Some (B "about")))] [s_in (B "c.css") 6%Z None].
Definition s_site : ctx := s_site_at 3.
Definition s_world : sdisk :=
  (map (fun x => (B "/r/" ++ fst (fst x), (snd (fst x), snd x)))
    [(B "blogcfile", 2%Z, s_text);
     (B "main.tmpl", 1%Z, B "{{ SITE_TITLE }}{% block listing %} [{{ TITLE }}{% ifdef TAGS %} #{{ TAGS }}{% endif %}]{% endblock %}{% block entry %}: {{ TITLE }} {{ CONTENT }}{% endblock %}");
     (B "atom.tmpl", 1%Z, B "<feed>{% block listing %}<entry>{{ TITLE }}</entry>{% endblock %}</feed>");
     (B "a.txt", 3%Z, B "TITLE: A" ++ [LF] ++ B "TAGS: x" ++ [LF] ++ B "-----" ++ [LF] ++ B "Hi *a*." ++ [LF]);
     (B "b.txt", 4%Z, B "TITLE: B" ++ [LF] ++ B "-----" ++ [LF] ++ B "b" ++ [LF]);
     (B "about.txt", 5%Z, B "TITLE: About" ++ [LF] ++ B "-----" ++ [LF] ++ B "us" ++ [LF]);
     (B "c.css", 6%Z, B "p {}" ++ [LF])], 20%Z).
Definition s_answer (t : option bytes) : option bytes := match t with None => Some (B "2") | Some _ => Some (B "1") end.
Definition s_outputs : list bytes :=
  [B "/r/_build/index.html"; B "/r/_build/atom.xml"; B "/r/_build/atom/x.xml"; B "/r/_build/page/1/index.html"; B "/r/_build/page/2/index.html";
   B "/r/_build/tag/x/page/1/index.html"; B "/r/_build/post/a/index.html"; B "/r/_build/post/b/index.html"; B "/r/_build/tag/x/index.html";
   B "/r/_build/about/index.html"; B "/r/_build/c.css"].
Definition parentb (d f : bytes) : bool :=
  negb (beq d []) && beq (firstn (length d) f) d && match skipn (length d) f with c :: _ => (c == "/"%char) || (c == BSL) | [] => false end.
Lemma parentb_false d f : parentb d f = false -> ~ parent d f.
Proof.
  intros E (Hd & x & r & -> & Hx). unfold parentb in E. rewrite firstn_app, Nat.sub_diag, firstn_all, app_nil_r, beq_refl in E.
  rewrite skipn_app, Nat.sub_diag, skipn_all in E. cbn [app skipn] in E. replace (beq d []) with false in E by (symmetry; apply beq_neq; exact Hd).
  cbn [negb andb] in E. rewrite orb_false_iff, !eqb_false in E. tauto.
Qed.
(* a world whose clock shows more than the times of the sources *)
Section Moment.
Variables (T ta : Z) (s_world : sdisk).
Hypothesis T_late : (9 <= T)%Z.
Hypothesis t_early : (ta < T)%Z.
Hypothesis now_world : s_now_at T s_world.
Notation s_now := (s_now_at T).
Notation s_site := (s_site_at ta).
Notation s_runs_blogc := (runs_blogc s_stat s_file Some (fun t => t) (fun _ _ _ => None) (fun _ => []) 400 400 (fun _ _ => true) (fun _ _ => true) (B "1") s_now).
Lemma s_inputs_time f : In f (inputs s_site) -> (fst (f_time f) < T)%Z.
Proof. revert f. apply Forall_forall. repeat (constructor; [cbn; lia|]). constructor. Qed.
Lemma s_written w p t : s_stat w p = Some t -> (T <= fst t)%Z -> written s_stat s_site w p.
Proof. intros E H. exists t. split; [exact E|]. intros f Hf. left. pose proof (s_inputs_time Hf). lia. Qed.
Lemma s_runs : s_runs_blogc s_site (B "blogc") s_command.
Proof.
  intros w cmd input locale args Hn Hw. unfold s_command. rewrite Hw, call_words. unfold s_blogc.
  destruct (blogc_main _ _ _ _ _ _ _ _ _ _ _ _) as [[l n]| |] eqn:E.
  - destruct (effects_spec l Hn) as (A1 & A2 & A3 & A4 & A5 & A6). split; [exact A1|]. split; [exact A2|]. left. exists l, n, (s_printed l), None.
    split; [reflexivity|]. split; [reflexivity|]. split; [exact A3|]. split; [exact A4|]. intros p Hp. destruct (A6 p Hp) as (t & Et & Ht). exact (s_written Et Ht).
  - split; [exact Hn|]. split; [apply later_refl|]. right. repeat split; discriminate.
  - split; [exact Hn|]. split; [apply later_refl|]. right. repeat split; discriminate.
Qed.
Lemma s_copies : copies s_stat s_file s_now s_site s_cp.
Proof.
  intros w s o Hn. unfold s_cp. destruct (s_file w (f_path s)) as [b|] eqn:E.
  - destruct (now_put (f_path o) b Hn) as [A1 A2]. split; [exact A1|]. split; [exact A2|]. split; [|split; [|split]].
    + intros p Hp. rewrite file_put. replace (beq (f_path o) p) with false by (symmetry; apply beq_neq; congruence). reflexivity.
    + intros p Hp _. rewrite stat_put. replace (beq (f_path o) p) with false by (symmetry; apply beq_neq; congruence). reflexivity.
    + intros _. rewrite file_put, beq_refl. split; [congruence|]. split; [discriminate|]. eapply s_written; [rewrite stat_put, beq_refl; reflexivity|]. apply Hn.
    + intro X. destruct (X eq_refl).
  - split; [exact Hn|]. split; [apply later_refl|]. split; [reflexivity|]. split; [reflexivity|]. split; [discriminate|]. auto.
Qed.
Lemma s_told w args input : meanwhile s_file s_now s_site s_world w ->
  Forall (fun f => existsb (fun g => beq (f_path g) f) (inputs s_site) = true) (told (B "1") args input) -> s_blogc w args input = s_blogc s_world args input.
Proof.
  intros [H _] L. unfold s_blogc. apply C90_told. intros f Hf. rewrite Forall_forall in L. specialize (L f Hf). apply existsb_exists in L.
  destruct L as (g & Hg & E). apply beq_eq in E. subst f. symmetry. apply contents_same. symmetry. symmetry. apply H. exact Hg.
Qed.
Definition s_asked (lv : option (trie bytes)) (s : option bytes) : Prop :=
  let (cmd, input) := exec_get_variable (c_exec s_site) (Some (posts_pagination s_site trie_new (B "posts_per_page"))) lv (B "LAST_PAGE") true
                         [B "/r/a.txt"; B "/r/b.txt"] false in
  match sh_words cmd with
  | Some ws => match s_call ws with
               | Some (_, args) =>
                   forallb (fun f => existsb (fun g => beq (f_path g) f) (inputs s_site)) (told (B "1") args input) = true /\
                   match s_blogc s_world args input with
                   | Ok (l, n) => forallb (fun e => match e with EPrint _ => true | _ => false end) l = true /\ get_variable_result (CmdDone n (s_printed l) None) = s
                   | _ => False
                   end
               | None => False
               end
  | None => False
  end.
Lemma s_asks w lv s : meanwhile s_file s_now s_site s_world w -> s_asked lv s ->
  ask_blogc s_command s_site (Some (posts_pagination s_site trie_new (B "posts_per_page"))) lv (B "LAST_PAGE") w = (w, Ok s).
Proof.
  intros Hm H. unfold s_asked in H. unfold ask_blogc. replace (paths (c_posts s_site)) with (Ok [B "/r/a.txt"; B "/r/b.txt"]) by reflexivity.
  destruct (exec_get_variable _ _ _ _ _ _ _) as [cmd input]. unfold s_command. destruct (sh_words cmd) as [ws|]; [|destruct H]. destruct (s_call ws) as [[loc args]|]; [|destruct H].
  destruct H as [H1 H2]. rewrite (@s_told w args input Hm) by (apply Forall_forall; rewrite forallb_forall in H1; exact H1).
  destruct (s_blogc s_world args input) as [[l n]| |]; try destruct H2 as []. rewrite H0. replace (s_effects l w) with w; [reflexivity|].
  clear H0 H1. revert H. induction l as [|e l IH]; [reflexivity|]. cbn [forallb]. destruct e; try discriminate. cbn [s_effects]. exact IH.
Qed.
Hypothesis asked_all : s_asked None (Some (B "2")).
Hypothesis asked_x : s_asked (Some (trie_insert trie_new (B "FILTER_TAG") (B "x"))) (Some (B "1")).
Lemma s_answers : answers s_command (meanwhile s_file s_now s_site s_world) s_site s_answer.
Proof.
  split; [|split].
  - intros w Hm. apply s_asks; [exact Hm|exact asked_all].
  - intros tags t w Hm Et Ht. assert (E : s_tags (c_st s_site) = Some [B "x"]) by (vm_compute; reflexivity). rewrite E in Et. injection Et as <-. destruct Ht as [<-|[]].
    apply s_asks; [exact Hm|exact asked_x].
  - intros [t|] s E; injection E as <-; vm_compute; discriminate.
Qed.
Lemma s_ok : site_ok s_site.
Proof.
  split; [repeat constructor|]. split; [intros [E|[E|[]]]; discriminate|]. split; [intros [E|[]]; discriminate|].
  split; intros l E.
  - replace (s_posts (c_st s_site)) with (Some [B "a"; B "b"]) in E by (vm_compute; reflexivity). injection E as <-. reflexivity.
  - replace (s_pages (c_st s_site)) with (Some [B "about"]) in E by (vm_compute; reflexivity). injection E as <-. reflexivity.
Qed.
Hypothesis names_world :
  match built_files s_site (build_rules s_stat s_command s_cp) s_world with (_, Ok l) => map (option_map (fun f => f_path f)) l | _ => [] end = map Some s_outputs.
Lemma s_products rule n d : product s_site s_answer rule n d -> In (absolute s_site n) s_outputs.
Proof.
  intro P. destruct (P_Clean.built_spec s_stat s_cp s_ok s_answers) as (names & E & F).
  assert (M : meanwhile s_file s_now s_site s_world s_world) by (split; [intros f _; reflexivity|exact now_world]). specialize (E s_world M).
  assert (Hn : In (Some n) names) by (apply F; exists rule, d; exact P).
  assert (X : map (option_map (fun f => f_path f)) (map (out s_stat s_site s_world) names) = map Some s_outputs).
  { pose proof names_world as Y.
    rewrite E in Y. exact Y. }
  rewrite map_map in X. assert (Z : In (option_map (fun f => f_path f) (out s_stat s_site s_world (Some n))) (map Some s_outputs)) by (rewrite <- X; apply (in_map (fun x => option_map (fun f => f_path f) (out s_stat s_site s_world x))); exact Hn).
  rewrite in_map_iff in Z. destruct Z as (p & Ep & Hp). replace (absolute s_site n) with p; [exact Hp|].
  destruct (out_some s_stat s_site s_world n) as [o Eo]. rewrite Eo in Ep. injection Ep as ->. apply (out_path Eo).
Qed.
Lemma s_apart : apart s_site s_answer.
Proof.
  assert (A : Forall (fun p => Forall (fun f => p <> f_path f) (inputs s_site)) s_outputs) by (repeat constructor; discriminate).
  assert (F : Forall (fun p => Forall (fun q => parentb p q = false) s_outputs) s_outputs) by (repeat constructor).
  split.
  - intros rule n d f P Hf. apply s_products in P. rewrite Forall_forall in A. specialize (A _ P). rewrite Forall_forall in A. apply A. exact Hf.
  - intros rule n d rule' n' d' P P'. apply s_products in P, P'. rewrite Forall_forall in F. specialize (F _ P). rewrite Forall_forall in F. apply parentb_false, F. exact P'.
Qed.
Lemma s_nameable : nameable s_site s_answer.
Proof.
  assert (A : Forall (fun p => no_nul p /\ p <> B "-") s_outputs) by (repeat (constructor; [split; [apply no_nulb_spec; reflexivity|discriminate]|]); constructor).
  split; try (apply no_nulb_spec; reflexivity).
  - discriminate.
  - intros f [E|[E|[E|[]]]]; injection E as <-; (split; [apply no_nulb_spec; reflexivity|]); (split; [intro X; vm_compute in X; repeat (destruct X as [X|X]; [discriminate|]); exact X|]);
      (split; [intro X; vm_compute in X; repeat (destruct X as [X|X]; [discriminate|]); exact X|]); (split; [reflexivity|eexists; reflexivity]).
  - intros f s [E|[E|[E|[]]]] Es; injection E as <-; injection Es as <-; apply ascii_text; reflexivity.
  - intros rule n d P. apply s_products in P. rewrite Forall_forall in A. apply A. exact P.
Qed.
Lemma s_fresh : Forall (fun p => s_stat s_world p = None) s_outputs ->
  honest s_stat s_file Some (fun t => t) (fun _ _ _ => None) (fun _ => []) 400 (B "1") s_site s_answer s_world.
Proof. intro H. apply C89_fresh. intros rule n d P. apply s_products in P. rewrite Forall_forall in H. apply H. exact P. Qed.
Lemma s_settings_ok : settings_parse s_text = Ok (Datatypes.inl (c_st s_site)) /\ utf8 s_text /\ tags_ok (c_st s_site) /\ P_BlogcCmd.word (e_blogc (c_exec s_site)) (B "blogc").
Proof.
  split; [vm_compute; reflexivity|]. split; [apply ascii_text; vm_compute; reflexivity|].
  split; [intros l E; replace (s_tags (c_st s_site)) with (Some [B "x"]) in E by (vm_compute; reflexivity); injection E as <-; repeat constructor; intro X; vm_compute in X; repeat (destruct X as [X|X]; [discriminate|]); exact X|].
  intro done; vm_compute; reflexivity.
Qed.
End Moment.
Notation s_now := (s_now_at 9).
Notation s_runs_blogc := (runs_blogc s_stat s_file Some (fun t => t) (fun _ _ _ => None) (fun _ => []) 400 400 (fun _ _ => true) (fun _ _ => true) (B "1") s_now).
Lemma s_now_world : s_now s_world.
Proof. split; [|vm_compute; discriminate]. repeat (constructor; [vm_compute; discriminate|]). constructor. Qed.
Lemma s_world_ok : answers s_command (meanwhile s_file s_now s_site s_world) s_site s_answer /\ nameable s_site s_answer /\ apart s_site s_answer /\
  honest s_stat s_file Some (fun t => t) (fun _ _ _ => None) (fun _ => []) 400 (B "1") s_site s_answer s_world.
Proof.
  assert (A1 : s_asked 3 s_world None (Some (B "2"))) by (vm_compute; split; [reflexivity|split; reflexivity]).
  assert (A2 : s_asked 3 s_world (Some (trie_insert trie_new (B "FILTER_TAG") (B "x"))) (Some (B "1"))) by (vm_compute; split; [reflexivity|split; reflexivity]).
  assert (A3 : match built_files (s_site_at 3) (build_rules s_stat s_command s_cp) s_world with (_, Ok l) => map (option_map (fun f => f_path f)) l | _ => [] end = map Some s_outputs) by (vm_compute; reflexivity).
  unfold s_site. pose proof (s_answers 9 A1 A2) as K1. pose proof (s_nameable s_now_world A1 A2 A3) as K2. pose proof (s_apart s_now_world A1 A2 A3) as K3.
  pose proof (s_fresh s_now_world A1 A2 A3) as K4. split; [exact K1|]. split; [exact K2|]. split; [exact K3|]. apply K4. repeat constructor.
Qed.
(* the settings above, the site they describe, a disk with its files: blogc-make builds it *)
Example C89_example :
  settings_parse s_text = Ok (Datatypes.inl (c_st s_site)) /\ utf8 s_text /\ tags_ok (c_st s_site) /\ P_BlogcCmd.word (e_blogc (c_exec s_site)) (B "blogc") /\
  nameable s_site s_answer /\ apart s_site s_answer /\ site_ok s_site /\ s_runs_blogc s_site (B "blogc") s_command /\ copies s_stat s_file s_now s_site s_cp /\
  answers s_command (meanwhile s_file s_now s_site s_world) s_site s_answer /\ s_now s_world /\
  honest s_stat s_file Some (fun t => t) (fun _ _ _ => None) (fun _ => []) 400 (B "1") s_site s_answer s_world /\
  let (w, r) := all_exec s_stat s_command s_cp s_site s_world in
  r = Ok 0 /\ s_file w (B "/r/_build/tag/x/index.html") = Some (B "The site [A #x]") /\
  s_file w (B "/r/_build/post/a/index.html") = Some (B "The site: A <p>Hi <em>a</em>.</p>" ++ [LF]) /\
  s_file w (B "/r/_build/page/3/index.html") = None.
Proof.
  destruct (s_settings_ok 3) as (A1 & A2 & A3 & A4). destruct s_world_ok as (B1 & B2 & B3 & B4).
  split; [exact A1|]. split; [exact A2|]. split; [exact A3|]. split; [exact A4|]. split; [exact B2|]. split; [exact B3|]. split; [exact (s_ok 3)|].
  split; [apply s_runs; reflexivity|]. split; [apply s_copies; reflexivity|]. split; [exact B1|]. split; [exact s_now_world|]. split; [exact B4|].
  vm_compute; repeat split; reflexivity.
Qed.

(* the claim without [copies]: fails. When the disk is full the copy stops half-way, and
   that is reported; but the half of the file has a new time, so that the next run finds it
   up to date, reports success and leaves it. [native_cp] is exec-native.c's (Native.v);
   the disk has room again when the clock shows 45. *)
Definition full_cp (w : sdisk) (s o : fctx) : sdisk * nat :=
  match s_file w (f_path s) with
  | Some b => match Native.native_cp 5 (fun _ => true) (f_path o) (Some 0) (Some 1) [] (if Z.ltb (snd w) 45 then [Native.Upto 2; Native.Fail] else []) (fun i => if Nat.eqb i 0 then b else []) with
              | (_, Ok (st, n)) => (s_put w (f_path o) (st 1), n)
              | _ => (w, 1)
              end
  | None => (w, 1)
  end.
Theorem C89_retry_refuted : exists src c answer w w1 n w2 f p,
  settings_parse src = Ok (Datatypes.inl (c_st c)) /\ nameable c answer /\ apart c answer /\ site_ok c /\ s_runs_blogc c (B "blogc") s_command /\
  answers s_command (meanwhile s_file s_now c w) c answer /\
  honest s_stat s_file Some (fun t => t) (fun _ _ _ => None) (fun _ => []) 400 (B "1") c answer w /\
  all_exec s_stat s_command full_cp c w = (w1, Ok n) /\ n <> 0 /\ all_exec s_stat s_command full_cp c w1 = (w2, Ok 0) /\
  product c answer (B "copy") p [c_settings c; f] /\ recipe c (B "copy") p (JCopy f) /\ s_file w2 (absolute c p) <> s_file w2 (f_path f).
Proof.
  destruct C89_example as (E1 & _ & _ & _ & E5 & E6 & E7 & E8 & _ & E10 & _ & E12 & _).
  exists s_text, s_site, s_answer, s_world. destruct (all_exec s_stat s_command full_cp s_site s_world) as [w1 r1] eqn:R1. exists w1, 1.
  destruct (all_exec s_stat s_command full_cp s_site w1) as [w2 r2] eqn:R2. exists w2, (s_in (B "c.css") 6%Z None), (B "_build/c.css").
  assert (X : r1 = Ok 1) by (change r1 with (snd (w1, r1)); rewrite <- R1; vm_compute; reflexivity). subst r1.
  assert (Y : match all_exec s_stat s_command full_cp s_site (fst (all_exec s_stat s_command full_cp s_site s_world)) with
              | (w, r) => r = Ok 0 /\ s_file w (B "/r/_build/c.css") <> s_file w (B "/r/c.css") end) by (vm_compute; split; [reflexivity|discriminate]).
  rewrite R1 in Y. cbn [fst] in Y. rewrite R2 in Y. destruct Y as [-> Y].
  split; [exact E1|]. split; [exact E5|]. split; [exact E6|]. split; [exact E7|]. split; [exact E8|]. split; [exact E10|]. split; [exact E12|].
  split; [reflexivity|]. split; [discriminate|]. split; [reflexivity|]. split; [|split; [|exact Y]].
  - apply (@P_copy s_site s_answer (s_in (B "c.css") 6%Z None)); [vm_compute; discriminate|left; reflexivity].
  - apply (@R_copy s_site (s_in (B "c.css") 6%Z None)). left. reflexivity.
Qed.
Print Assumptions C89_retry_refuted.

(* a call that names two files: two disks that differ elsewhere give the same *)
Example C90_example :
  told (B "1") [B "-t"; B "/r/main.tmpl"; B "/r/a.txt"] [] = [B "/r/a.txt"; B "/r/main.tmpl"] /\
  told (B "1") [B "-l"; B "-i"; B "-t"; B "/r/main.tmpl"] (B "/r/b.txt" ++ [LF] ++ B "/r/a.txt" ++ [LF]) = [B "/r/main.tmpl"; B "/r/b.txt"; B "/r/a.txt"] /\
  s_blogc (s_put s_world (B "/r/b.txt") (B "no source")) [B "-t"; B "/r/main.tmpl"; B "/r/a.txt"] [] =
  s_blogc s_world [B "-t"; B "/r/main.tmpl"; B "/r/a.txt"] [] /\
  match s_blogc s_world [B "-t"; B "/r/main.tmpl"; B "/r/a.txt"] [] with Ok (l, n) => n = 0 /\ s_printed l <> None | _ => False end.
Proof.
  split; [vm_compute; reflexivity|]. split; [vm_compute; reflexivity|]. split; [|vm_compute; split; [reflexivity|discriminate]].
  unfold s_blogc. apply C90_told. replace (told _ _ _) with [B "/r/a.txt"; B "/r/main.tmpl"] by (vm_compute; reflexivity).
  intros f [<-|[<-|[]]]; vm_compute; reflexivity.
Qed.
