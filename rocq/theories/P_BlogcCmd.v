(* C47: the command lines blogc-make runs. *)
From Verif Require Import Base Utils Trie TrieProofs UtilsProofs ShSpec Config ConfigProofs ConfigWf Settings SettingsSpec
  P_Settings Filelist FilelistSpec FilelistProofs BlogcCmd BlogcCmdSpec.
#[local] Arguments B : simpl never.

(* [x] after complete words is one more word [w] *)
Definition word (x w : bytes) : Prop := forall done, sh_run (Sh done Blank) x = Some (Sh done (Word w)).
(* [x] after a word adds the words [ws] *)
Definition adds (x : bytes) (ws : list bytes) : Prop := forall done w, exists done' w',
  sh_run (Sh done (Word w)) x = Some (Sh done' (Word w')) /\ done' ++ [w'] = done ++ [w] ++ ws.

Lemma adds_nil : adds [] [].
Proof. intros done w. exists done, w. split; [reflexivity|]. reflexivity. Qed.
Lemma adds_app x y ws vs : adds x ws -> adds y vs -> adds (x ++ y) (ws ++ vs).
Proof.
  intros Hx Hy done w. destruct (Hx done w) as (d1 & w1 & E1 & Q1). destruct (Hy d1 w1) as (d2 & w2 & E2 & Q2).
  exists d2, w2. rewrite sh_run_app, E1. split; [exact E2|]. rewrite Q2.
  change (d1 ++ [w1] ++ vs) with (d1 ++ ([w1] ++ vs)). rewrite app_assoc, Q1, <- !app_assoc. reflexivity.
Qed.
Lemma adds_word x w : word x w -> adds (SP :: x) [w].
Proof. intros H done w0. exists (done ++ [w0]), w. cbn [sh_run sh_step]. split; [apply H|]. rewrite <- app_assoc. reflexivity. Qed.

Lemma run_next done w x v : word x v -> sh_run (Sh done (Word w)) (SP :: x) = Some (Sh (done ++ [w]) (Word v)).
Proof. intro H. apply (H (done ++ [w])). Qed.

Lemma plain_step done w c : plain c ->
  sh_unquoted done w c = Some (Sh done (Word (match w with Some w => w | None => [] end ++ [c]))).
Proof.
  intros (H1 & H2 & H3 & H4 & H5 & H6). unfold sh_unquoted.
  rewrite !(proj2 (eqb_false _ _)) by assumption. cbn [orb]. rewrite H6. reflexivity.
Qed.
Lemma run_plain x : Forall plain x -> forall done w, sh_run (Sh done (Word w)) x = Some (Sh done (Word (w ++ x))).
Proof.
  induction 1 as [|c x Hc Hx IH]; intros done w; cbn [sh_run]; [rewrite app_nil_r; reflexivity|].
  cbn [sh_step sh_mode_of sh_done]. rewrite plain_step by exact Hc. rewrite IH, <- app_assoc. reflexivity.
Qed.
Lemma word_plain x : Forall plain x -> x <> [] -> word x x.
Proof.
  intros Hx Hn done. destruct x as [|c x]; [contradiction|]. inv Hx. cbn [sh_run sh_step sh_mode_of sh_done].
  rewrite plain_step by assumption. rewrite run_plain by assumption. reflexivity.
Qed.
Lemma word_quote v : no_nul v -> word (shell_quote (Some v)) v.
Proof. intros H done. apply quote_run_blank. exact H. Qed.
Lemma word_plain_then x y v : Forall plain x -> x <> [] ->
  (forall done w, sh_run (Sh done (Word w)) y = Some (Sh done (Word (w ++ v)))) -> word (x ++ y) (x ++ v).
Proof. intros Hx Hn Hy done. rewrite sh_run_app, (word_plain Hx Hn). apply Hy. Qed.
Lemma word_plain_quote x v : Forall plain x -> x <> [] -> no_nul v -> word (x ++ shell_quote (Some v)) (x ++ v).
Proof. intros Hx Hn Hv. apply word_plain_then; [exact Hx|exact Hn|]. intros done w. apply quote_run_word. exact Hv. Qed.

Definition plainb (c : ascii) : bool :=
  negb ((c == SP) || (c == TAB) || (c == SQ) || (c == DQ) || (c == BSL) || sh_special c).
Lemma plainb_spec c : plainb c = true <-> plain c.
Proof.
  unfold plainb, plain. rewrite negb_true_iff, !orb_false_iff, !eqb_false. tauto.
Qed.
Lemma plain_all x : forallb plainb x = true -> Forall plain x.
Proof. rewrite forallb_forall, Forall_forall. intros H c Hc. apply plainb_spec. auto. Qed.

(* quoted with plain single quotes, as the tags are *)
Lemma run_single x : no_nul x -> ~ In SQ x -> forall done w,
  sh_run (Sh done (Single w)) x = Some (Sh done (Single (w ++ x))).
Proof.
  induction x as [|c x IH]; intros Hn Hq done w; [rewrite app_nil_r; reflexivity|].
  apply no_nul_cons in Hn. destruct Hn as [Hc Hn]. cbn [sh_run sh_step sh_mode_of sh_done].
  apply eqb_false in Hc. rewrite Hc.
  destruct (c == SQ) eqn:E; [apply eqb_true in E; subst; exfalso; apply Hq; left; reflexivity|].
  rewrite IH, <- app_assoc; [reflexivity|exact Hn|]. intro H. apply Hq. right. exact H.
Qed.
Lemma run_raw_quoted x : no_nul x -> ~ In SQ x -> forall done w,
  sh_run (Sh done (Word w)) (SQ :: x ++ [SQ]) = Some (Sh done (Word (w ++ x))).
Proof. 
  intros Hn Hq done w. change (SQ :: x ++ [SQ]) with ([SQ] ++ x ++ [SQ]).
  rewrite sh_run_app. change (sh_run (Sh done (Word w)) [SQ]) with (Some (Sh done (Single w))). cbv iota.
  rewrite sh_run_app, run_single by assumption. reflexivity. Qed.

Lemma join_spaced l : strv_join l (B " ") = spaced l.
Proof.
  induction l as [|t r IH]; [reflexivity|]. cbn [strv_join spaced]. rewrite IH.
  destruct r as [|t' r]; [cbn [spaced]; rewrite !app_nil_r; reflexivity|reflexivity].
Qed.

Lemma adds_define k v : Forall plain k -> no_nul v -> adds (B " -D " ++ k ++ B "=" ++ shell_quote (Some v)) (define k v).
Proof.
  intros Hk Hv. change (B " -D " ++ k ++ B "=" ++ shell_quote (Some v))
    with ((SP :: B "-D") ++ (SP :: k ++ B "=" ++ shell_quote (Some v))).
  unfold define. change [B "-D"; k ++ B "=" ++ v] with ([B "-D"] ++ [k ++ B "=" ++ v]). apply adds_app.
  - apply adds_word, word_plain; [apply plain_all; reflexivity|discriminate].
  - apply adds_word. rewrite !(app_assoc k). apply word_plain_quote; [|destruct k; discriminate|exact Hv].
    apply Forall_app. split; [exact Hk|apply plain_all; reflexivity].
Qed.

(* what the variables of a trie must be: names the shell takes as they are, values without NUL *)
Definition vars_ok (t : option (trie bytes)) : Prop :=
  match t with
  | Some t => wf t /\ forall k v, no_nul k -> trie_lookup t k = Some v -> Forall plain k /\ no_nul v
  | None => True
  end.
Lemma adds_variables t : vars_ok t -> adds (list_variables t) (defines (pairs t)).
Proof.
  destruct t as [t|]; [|intros _; apply adds_nil]. intros [Hw H]. unfold list_variables, pairs.
  assert (A : forall kd, In kd (trie_foreach t) -> exists v, snd kd = Some v /\ Forall plain (fst kd) /\ no_nul v).
  { intros [k d] Hi. apply (foreach_lookup Hw) in Hi. destruct Hi as (Hn & v & -> & El). exists v.
    destruct (H _ _ Hn El). auto. }
  clear Hw H. induction (trie_foreach t) as [|[k d] l IH]; [apply adds_nil|].
  destruct (A (k, d) (or_introl eq_refl)) as (v & Hd & Hk & Hv). cbn [snd fst] in *. subst d.
  cbn [flat_map]. unfold defines. rewrite flat_map_app. apply adds_app.
  - cbn [fst snd flat_map]. rewrite app_nil_r. apply adds_define; assumption.
  - apply IH. intros kd Hi. apply A. right. exact Hi.
Qed.

Lemma adds_option o v : Forall plain o -> (match v with Some v => no_nul v | None => True end) ->
  adds (option_arg o v) (opt (B "-" ++ o) v).
Proof.
  intros Ho Hv. destruct v as [v|]; [|apply adds_nil]. unfold option_arg, opt.
  change (B " -" ++ o ++ B " " ++ shell_quote (Some v)) with (SP :: ((B "-" ++ o) ++ (SP :: shell_quote (Some v)))).
  change [B "-" ++ o; v] with ([B "-" ++ o] ++ [v]).
  change (SP :: (B "-" ++ o) ++ SP :: shell_quote (Some v)) with ((SP :: (B "-" ++ o)) ++ (SP :: shell_quote (Some v))).
  apply adds_app; apply adds_word; [|apply word_quote; exact Hv].
  apply word_plain; [|discriminate]. apply Forall_app. split; [apply plain_all; reflexivity|exact Ho].
Qed.

Definition opt_ok (v : option bytes) : Prop := match v with Some v => no_nul v | None => True end.

Lemma starts_adds x ws y vs : sh_words x = Some ws -> (exists d w, sh_run (Sh [] Blank) x = Some (Sh d (Word w))) ->
  adds y vs -> sh_words (x ++ y) = Some (ws ++ vs).
Proof.
  intros Hx (d & w & Hr) Hy. unfold sh_words in *. rewrite sh_run_app. rewrite Hr in *. injection Hx as <-.
  destruct (Hy d w) as (d' & w' & -> & E). rewrite E, <- app_assoc. reflexivity.
Qed.

(* what settings must be for the command to be read as meant *)
Definition settings_ok (st : option settings) : Prop :=
  match st with
  | Some st =>
      opt_ok (trie_lookup (s_settings st) (B "locale")) /\ vars_ok (Some (s_global st))
      /\ match s_tags st with Some l => Forall (fun t => no_nul t /\ ~ In SQ t) l | None => True end
  | None => True
  end.

Definition the_call (bin : bytes) (st : option settings) gv lv print listing entry template output dev stdin : call :=
  Call (match st with Some st => trie_lookup (s_settings st) (B "locale") | None => None end) bin
    (match st with Some st => s_tags st | None => None end)
    ((match st with Some st => pairs (Some (s_global st)) | None => [] end) ++ pairs gv ++ pairs lv)
    dev print listing entry template output stdin.

Lemma spaced_ok l : Forall (fun t => no_nul t /\ ~ In SQ t) l -> no_nul (spaced l) /\ ~ In SQ (spaced l).
Proof.
  induction l as [|t r IH]; intro H; [split; intros []|]. inv H. destruct (IH H3) as [I1 I2]. destruct H2 as [H1 H2].
  cbn [spaced]. destruct r as [|t' r]; [auto|]. split; intro Hi; apply in_app_or in Hi; destruct Hi as [Hi|Hi]; auto;
    apply in_app_or in Hi; destruct Hi as [[Hi|[]]|Hi]; auto; discriminate.
Qed.

Theorem C47_words_partial : forall blogc_bin bin st gv lv print listing entry template output dev stdin,
  word blogc_bin bin -> settings_ok st -> vars_ok gv -> vars_ok lv ->
  (match print with Some p => Forall plain p /\ p <> [] | None => True end) ->
  opt_ok entry -> opt_ok template -> opt_ok output ->
  sh_words (build_blogc_cmd blogc_bin st gv lv print listing entry template output dev stdin)
  = Some (call_words (the_call bin st gv lv print listing entry template output dev stdin)).
Proof.
  intros blogc_bin bin st gv lv print listing entry template output dev stdin Hb Hs Hg Hl Hp He Ht Ho.
  unfold build_blogc_cmd, call_words, the_call. cbn [k_locale k_bin k_tags k_vars k_dev k_print k_listing k_entry k_template k_output k_stdin].
  rewrite (app_assoc _ blogc_bin), (app_assoc _ [bin]). apply starts_adds.
  - destruct st as [st|]; [|unfold sh_words; cbn [app]; rewrite Hb; reflexivity].
    destruct Hs as (Hloc & _). destruct (trie_lookup (s_settings st) (B "locale")) as [l|]; [|unfold sh_words; cbn [app]; rewrite Hb; reflexivity].
    unfold sh_words. rewrite <- !app_assoc, (app_assoc (B "LC_ALL=")), sh_run_app.
    rewrite (@word_plain_quote (B "LC_ALL=") l); [|apply plain_all; reflexivity|discriminate|exact Hloc].
    change (B " " ++ blogc_bin) with (SP :: blogc_bin). rewrite (run_next _ _ Hb). reflexivity.
  - destruct st as [st|]; [|exists [], bin; cbn [app]; apply Hb].
    destruct Hs as (Hloc & _). destruct (trie_lookup (s_settings st) (B "locale")) as [l|]; [|exists [], bin; cbn [app]; apply Hb].
    exists [B "LC_ALL=" ++ l], bin. rewrite <- !app_assoc, (app_assoc (B "LC_ALL=")), sh_run_app.
    rewrite (@word_plain_quote (B "LC_ALL=") l); [|apply plain_all; reflexivity|discriminate|exact Hloc].
    change (B " " ++ blogc_bin) with (SP :: blogc_bin). rewrite (run_next _ _ Hb). reflexivity.
  - assert (A : adds (match st with
      | Some st => (match s_tags st with Some tags => B " -D MAKE_TAGS='" ++ strv_join tags (B " ") ++ B "'" | None => [] end)
                   ++ list_variables (Some (s_global st))
      | None => [] end)
      ((match (match st with Some st => s_tags st | None => None end) with
        | Some t => define (B "MAKE_TAGS") (spaced t) | None => [] end)
       ++ defines (match st with Some st => pairs (Some (s_global st)) | None => [] end))).
    { destruct st as [st|]; [|apply adds_nil]. destruct Hs as (_ & Hv & Htg). apply adds_app; [|apply adds_variables; exact Hv].
      destruct (s_tags st) as [tags|]; [|apply adds_nil]. destruct (spaced_ok Htg) as [T1 T2]. rewrite join_spaced.
      change (B " -D MAKE_TAGS='" ++ spaced tags ++ B "'")
        with ((SP :: B "-D") ++ (SP :: B "MAKE_TAGS=" ++ (SQ :: spaced tags ++ [SQ]))).
      change (define (B "MAKE_TAGS") (spaced tags)) with ([B "-D"] ++ [B "MAKE_TAGS=" ++ spaced tags]).
      apply adds_app; apply adds_word.
      - apply word_plain; [apply plain_all; reflexivity|discriminate].
      - apply word_plain_then; [apply plain_all; reflexivity|discriminate|]. apply run_raw_quoted; assumption. }
    unfold defines in *. rewrite !flat_map_app. rewrite <- !app_assoc. rewrite (app_assoc _ (flat_map _ _)).
    apply adds_app; [exact A|]. apply adds_app; [apply adds_variables; exact Hg|]. apply adds_app; [apply adds_variables; exact Hl|].
    apply adds_app.
    { destruct dev; [|apply adds_nil].
      change (B " -D MAKE_ENV_DEV=1 -D MAKE_ENV='dev'") with
        (((SP :: B "-D") ++ (SP :: B "MAKE_ENV_DEV=1")) ++ (SP :: B "-D") ++ (SP :: (B "MAKE_ENV=" ++ (SQ :: B "dev" ++ [SQ])))).
      apply (@adds_app _ _ ([B "-D"] ++ [B "MAKE_ENV_DEV=1"]) ([B "-D"] ++ [B "MAKE_ENV=dev"])); apply adds_app; apply adds_word;
        try (apply word_plain; [apply plain_all; reflexivity|discriminate]).
      apply (@word_plain_then (B "MAKE_ENV=") _ (B "dev")); [apply plain_all; reflexivity|discriminate|].
      apply run_raw_quoted; [apply no_nulb_spec; reflexivity|]. vm_compute. intuition discriminate. }
    apply adds_app.
    { destruct print as [p|]; [|apply adds_nil]. destruct Hp as [Hp Hne].
      change (B " -p " ++ p) with ((SP :: B "-p") ++ (SP :: p)). change (opt (B "-p") (Some p)) with ([B "-p"] ++ [p]).
      apply adds_app; apply adds_word; apply word_plain; try assumption; [apply plain_all; reflexivity|discriminate]. }
    apply adds_app.
    { destruct listing; [|apply adds_nil]. change (B "-l" :: opt (B "-e") entry) with ([B "-l"] ++ opt (B "-e") entry).
      apply adds_app.
      - apply (@adds_word (B "-l")). apply word_plain; [apply plain_all; reflexivity|discriminate].
      - apply (@adds_option (B "e")); [apply plain_all; reflexivity|exact He]. }
    apply adds_app; [apply (@adds_option (B "t")); [apply plain_all; reflexivity|exact Ht]|].
    apply adds_app; [apply (@adds_option (B "o")); [apply plain_all; reflexivity|exact Ho]|].
    destruct stdin; [|apply adds_nil]. apply (@adds_word (B "-i")). apply word_plain; [apply plain_all; reflexivity|discriminate].
Qed.
Print Assumptions C47_words_partial.

(* ---- what settings read from a blogcfile are ---- *)
Lemma globals_wf cfg sec keys : (forall k, In k keys -> no_nul k) -> forall acc g, wf acc ->
  globals cfg sec keys acc = Ok (inl g) -> wf g.
Proof.
  induction keys as [|k keys IH]; intros Hk acc g Ha H; cbn [globals] in H; [inv H; exact Ha|].
  destruct (key_check sec k 0 k); [discriminate|]. destruct (config_get cfg sec k) as [v|]; [|discriminate].
  apply IH in H; [exact H|intros; apply Hk; right; assumption|]. apply trie_insert_wf; [apply Hk; left; reflexivity|exact Ha].
Qed.
Lemma defaults_wf cfg l : Forall (fun kd => no_nul (fst kd)) l -> forall acc, wf acc -> wf (with_defaults cfg l acc).
Proof.
  induction 1 as [|[k d] l Hk Hl IH]; intros acc Ha; cbn [with_defaults]; [exact Ha|]. apply IH.
  destruct (match config_get cfg (B "settings") k with Some v => Some v | None => d end); [apply trie_insert_wf; assumption|exact Ha].
Qed.
Lemma get_no_nul lists cfg sec k v : cfg_wf lists cfg -> no_nul sec -> no_nul k -> config_get cfg sec k = Some v -> no_nul v.
Proof.
  intros [_ H] Hs Hk E. unfold config_get in E. destruct (trie_lookup cfg sec) as [[m|l]|] eqn:El; try discriminate.
  destruct (H _ _ Hs El) as (_ & _ & Hv). eauto.
Qed.
Lemma get_list_no_nul lists cfg sec l : cfg_wf lists cfg -> no_nul sec -> config_get_list cfg sec = Some l -> Forall no_nul l.
Proof.
  intros [_ H] Hs E. unfold config_get_list in E. destruct (trie_lookup cfg sec) as [[m|l']|] eqn:El; try discriminate.
  inv E. destruct (H _ _ Hs El) as (_ & Hv). exact Hv.
Qed.
Lemma valid_name_plain k : valid_name k \/ k = [] -> Forall plain k.
Proof.
  assert (A : Forall plain more) by (apply plain_all; vm_compute; reflexivity). rewrite Forall_forall in A.
  intros [(c & r & -> & Hc & Hr)| ->]; [|constructor]. constructor.
  - apply A. unfold more. apply in_or_app. left. exact Hc.
  - rewrite Forall_forall in *. auto.
Qed.
Lemma variables_no_nul cfg sec : variables_from cfg sec -> no_nul sec.
Proof. intros [[_ ->]|[(_ & _ & ->)|(_ & _ & ->)]]; apply no_nulb_spec; reflexivity. Qed.

Lemma settings_wf src cfg st : config_parse list_sections src = Ok (inl cfg) -> settings_parse src = Ok (inl st) ->
  wf (s_global st) /\ wf (s_settings st).
Proof.
  intros Ec E. pose proof (config_wf Ec) as Hw. unfold settings_parse in E. rewrite Ec in E. cbn [rbind] in E.
  pose proof (@defaults_wf cfg default_settings (proj1 default_keys_ok) trie_new I) as Hd.
  revert E Hd. generalize (with_defaults cfg default_settings trie_new). intros wd E Hd.
  set (sk := match config_list_keys cfg (B "global") with Some l => (B "global", l) | None =>
               match config_list_keys cfg (B "environment") with Some l => (B "environment", l) | None => (B "global", []) end end) in E.
  assert (Hk : forall k, In k (snd sk) -> no_nul k).
  { assert (X : forall s l, no_nul s -> config_list_keys cfg s = Some l -> forall k, In k l -> no_nul k).
    { intros s l Hs H k Hi. unfold config_list_keys in H. destruct (trie_lookup cfg s) as [[m|l']|] eqn:El; try discriminate.
      inv H. destruct Hw as [_ Hw]. destruct (Hw _ _ Hs El) as (_ & Hm' & _). apply in_map_iff in Hi.
      destruct Hi as ([k' d] & <- & Hi). apply (foreach_lookup Hm') in Hi. apply Hi. }
    unfold sk. destruct (config_list_keys cfg (B "global")) as [l|] eqn:Eg;
      [apply (X (B "global")); [apply no_nulb_spec; reflexivity|exact Eg]|].
    destruct (config_list_keys cfg (B "environment")) as [l|] eqn:Ee;
      [apply (X (B "environment")); [apply no_nulb_spec; reflexivity|exact Ee]|]. intros k []. }
  destruct sk as [sec' keys]. cbn [snd] in Hk. destruct (globals cfg sec' keys trie_new) as [[g|e]| |] eqn:Eg; try discriminate.
  cbn [rbind] in E. destruct (required sec' required_global g); [discriminate|]. injection E as <-. cbn [s_global s_settings].
  split; [|exact Hd]. apply (globals_wf Hk) in Eg; [exact Eg|exact I].
Qed.

Record from_blogcfile (st : settings) : Prop := FB
  { fb_global : wf (s_global st);
    fb_settings : wf (s_settings st);
    fb_names : forall k v, no_nul k -> trie_lookup (s_global st) k = Some v -> (valid_name k \/ k = []) /\ no_nul v;
    fb_values : forall k v, no_nul k -> trie_lookup (s_settings st) k = Some v -> no_nul v;
    fb_lists : forall l, s_posts st = Some l \/ s_pages st = Some l \/ s_copy st = Some l \/ s_tags st = Some l -> Forall no_nul l }.

Lemma settings_parsed src st : settings_parse src = Ok (inl st) -> from_blogcfile st.
Proof.
  intro E. destruct (config_total list_sections src) as ([cfg|ce] & Ec & _); [|unfold settings_parse in E; rewrite Ec in E; discriminate].
  pose proof (config_wf Ec) as Hw.
  destruct (settings_spec Ec) as (sec & Hf & [(st' & Es & Hn & Hm & Hy)|(e & Es & _)]); [|congruence].
  rewrite E in Es. injection Es as <-. destruct Hy as (Yg & Ys & Yo & Yp & Ypg & Yt & Yc).
  pose proof (variables_no_nul Hf) as Hsec. constructor.
  - apply (settings_wf Ec E).
  - apply (settings_wf Ec E).
  - intros k v Hk El. rewrite Yg in El by exact Hk. split; [eapply Hn; eauto|]. apply (get_no_nul Hw Hsec Hk El).
  - intros k v Hk El. destruct (in_dec bytes_dec k (map fst documented)) as [Hi|Hi].
    + apply in_map_iff in Hi. destruct Hi as ([k' d] & <- & Hi). cbn [fst] in *. rewrite (Ys _ _ Hi) in El. unfold setting in El.
      destruct (config_get cfg (B "settings") k') as [v'|] eqn:Eg.
      * inv El. apply (get_no_nul Hw) in Eg; [exact Eg|apply no_nulb_spec; reflexivity|exact Hk].
      * subst d. assert (A : Forall (fun kd : bytes * option bytes => match snd kd with Some v => no_nulb v = true | None => True end) documented)
          by (unfold documented; repeat (constructor; [vm_compute; try reflexivity; exact I|]); constructor).
        rewrite Forall_forall in A. specialize (A _ Hi). cbn [snd] in A. apply no_nulb_spec. exact A.
    + rewrite Yo in El by assumption. discriminate.
  - intros l [H|[H|[H|H]]].
    + rewrite Yp in H. apply (get_list_no_nul Hw) in H; [exact H|apply no_nulb_spec; reflexivity].
    + rewrite Ypg in H. apply (get_list_no_nul Hw) in H; [exact H|apply no_nulb_spec; reflexivity].
    + rewrite Yc in H. destruct (config_get_list cfg (B "copy")) eqn:E2;
        [rewrite H in E2; apply (get_list_no_nul Hw) in E2; [exact E2|apply no_nulb_spec; reflexivity]|].
      apply (get_list_no_nul Hw) in H; [exact H|apply no_nulb_spec; reflexivity].
    + rewrite Yt in H. apply (get_list_no_nul Hw) in H; [exact H|apply no_nulb_spec; reflexivity].
Qed.

(* C47 for the settings of any blogcfile whose tags hold no single quote. What is
   missing is the tags: see C47_refuted. *)
Theorem C47_blogcfile_partial : forall src st blogc_bin bin gv lv print listing entry template output dev stdin,
  settings_parse src = Ok (inl st) ->
  (forall l, s_tags st = Some l -> Forall (fun t => ~ In SQ t) l) ->
  word blogc_bin bin -> vars_ok gv -> vars_ok lv ->
  (match print with Some p => Forall plain p /\ p <> [] | None => True end) ->
  opt_ok entry -> opt_ok template -> opt_ok output ->
  sh_words (build_blogc_cmd blogc_bin (Some st) gv lv print listing entry template output dev stdin)
  = Some (call_words (the_call bin (Some st) gv lv print listing entry template output dev stdin)).
Proof.
  intros src st blogc_bin bin gv lv print listing entry template output dev stdin E Ht. intros.
  apply C47_words_partial; try assumption. pose proof (settings_parsed E) as F. split; [|split].
  - unfold opt_ok. destruct (trie_lookup _ _) eqn:El; [|exact I]. apply (fb_values F) in El; [exact El|apply no_nulb_spec; reflexivity].
  - split; [apply (fb_global F)|]. intros k v Hk El. apply (fb_names F) in El; [|exact Hk]. destruct El as [A B0].
    split; [apply valid_name_plain; exact A|exact B0].
  - destruct (s_tags st) as [l|] eqn:Et; [|exact I]. specialize (Ht l eq_refl).
    assert (N : Forall no_nul l) by (apply (fb_lists F); right; right; right; exact Et).
    rewrite Forall_forall in *. intros t Hi. split; auto.
Qed.
Print Assumptions C47_blogcfile_partial.

(* A tag with single quotes is read by the shell as further words. *)
Definition ex_tags (t : bytes) : bytes := ex_head ++ B "[tags]
" ++ t ++ B "
".
Definition ex_cmd (st : settings) : bytes :=
  build_blogc_cmd (B "blogc") (Some st) None None None false None (Some (B "t")) (Some (B "o")) false true.
Definition ex_call (st : settings) : list bytes :=
  call_words (the_call (B "blogc") (Some st) None None None false None (Some (B "t")) (Some (B "o")) false true).
Theorem C47_refuted : exists src st ws,
  settings_parse src = Ok (inl st) /\ sh_words (ex_cmd st) = Some ws /\ ws <> ex_call st
  /\ In (B "-Dx=1") ws /\ ~ In (B "-Dx=1") (ex_call st).
Proof.
  exists (ex_tags (B "a' '-Dx=1")).
  assert (H : seen (ex_tags (B "a' '-Dx=1")) (fun st =>
      (match sh_words (ex_cmd st) with Some ws => Some (existsb (beq (B "-Dx=1")) ws) | None => None end,
       existsb (beq (B "-Dx=1")) (ex_call st))) = Some (Some true, false)) by (vm_compute; reflexivity).
  revert H. generalize (ex_tags (B "a' '-Dx=1")). intros src H. destruct (seen_some H) as (st & Es & Hv).
  destruct (sh_words (ex_cmd st)) as [ws|] eqn:Ew; [|discriminate].
  assert (H1 : existsb (beq (B "-Dx=1")) ws = true) by (exact (f_equal (fun x => match fst x with Some b => b | None => false end) Hv)).
  assert (H2 : existsb (beq (B "-Dx=1")) (ex_call st) = false) by (exact (f_equal snd Hv)). clear Hv H.
  exists st, ws. split; [exact Es|]. split; [exact Ew|].
  assert (I1 : In (B "-Dx=1") ws).
  { apply existsb_exists in H1. destruct H1 as (x & Hx & E). apply beq_eq in E. subst x. exact Hx. }
  assert (I2 : ~ In (B "-Dx=1") (ex_call st)).
  { intro Hi. assert (existsb (beq (B "-Dx=1")) (ex_call st) = true); [|congruence].
    apply existsb_exists. exists (B "-Dx=1"). split; [exact Hi|apply beq_refl]. }
  split; [intros ->; contradiction|]. split; assumption.
Qed.
Print Assumptions C47_refuted.

(* worse: a ';' in it is not quoted, so it is not even one command *)
Example C47_command : seen (ex_tags (B "a'; halt; '")) (fun st => sh_words (ex_cmd st)) = Some None.
Proof. vm_compute. reflexivity. Qed.

(* the hypotheses are met by a blogcfile with quotes, blanks and '$' in its values *)
Definition ex_full : bytes := ex_head ++ B "V_1 = it's $(a) ""b""
[settings]
locale = C; x
[tags]
one two
$three
".
Example C47_example : seen ex_full (fun st =>
  sh_words (build_blogc_cmd (B "blogc") (Some st) (Some (trie_insert trie_new (B "FILTER_PAGE") (B "1"))) None
    (Some (B "LAST_PAGE")) true (Some (B "a b")) None None true true))
  = Some (Some ([B "LC_ALL=C; x"; B "blogc"; B "-D"; B "MAKE_TAGS=one two $three";
       B "-D"; B "AUTHOR_NAME=A"; B "-D"; B "AUTHOR_EMAIL=a@b.c"; B "-D"; B "SITE_TITLE=T"; B "-D"; B "SITE_TAGLINE=L";
       B "-D"; B "BASE_DOMAIN=http://x"; B "-D"; B "V_1=it's $(a) ""b"""; B "-D"; B "FILTER_PAGE=1";
       B "-D"; B "MAKE_ENV_DEV=1"; B "-D"; B "MAKE_ENV=dev"; B "-p"; B "LAST_PAGE"; B "-l"; B "-e"; B "a b"; B "-i"])).
Proof. vm_compute. reflexivity. Qed.

(* ---- the program to run ---- *)
Lemma skip_slashes_in x c : In c (skip_slashes x) -> In c x.
Proof. induction x as [|a x IH]; cbn [skip_slashes]; [auto|]. destruct (a == "/"%char); [right; auto|auto]. Qed.
Lemma skip_name_in x c : In c (skip_name x) -> In c x.
Proof. induction x as [|a x IH]; cbn [skip_name]; [auto|]. destruct (a == "/"%char); [auto|right; auto]. Qed.
Lemma dirname_no_nul p : no_nul p -> no_nul (dirname p).
Proof.
  intros H Hi. apply H. unfold dirname in Hi.
  assert (R : forall n, In NUL (root_dir n) -> False).
  { intro n. unfold root_dir. destruct (Nat.eqb n 2); vm_compute; intuition discriminate. }
  assert (D : In NUL (B ".") -> False) by (vm_compute; intuition discriminate).
  destruct (skip_slashes (rev p)) as [|a x] eqn:E1; [destruct p; [destruct (D Hi)|destruct (R _ Hi)]|].
  destruct (skip_name (a :: x)) as [|b y] eqn:E2; [destruct (D Hi)|].
  destruct (skip_slashes (b :: y)) as [|d z] eqn:E3; [destruct (R _ Hi)|].
  apply in_rev in Hi. rewrite <- E3 in Hi. apply skip_slashes_in in Hi. rewrite <- E2 in Hi. apply skip_name_in in Hi.
  rewrite <- E1 in Hi. apply skip_slashes_in in Hi. apply in_rev. exact Hi.
Qed.

(* C47: the program is one word: the variable, the file beside blogc-make, or the name *)
Theorem C47_program : forall getenv access argv0 bin env,
  (forall n v, getenv n = Some v -> no_nul v) -> opt_ok argv0 -> Forall plain bin -> bin <> [] -> no_nul bin ->
  exists w, word (find_binary getenv access argv0 bin env) w /\
    (getenv env = Some w \/
     getenv env = None /\ ((exists a, argv0 = Some a /\ In "/"%char a /\ w = dirname a ++ B "/" ++ bin /\ access w = true)
                            \/ w = bin)).
Proof.
  intros getenv access argv0 bin env He Ha Hp Hne Hn. unfold find_binary. destruct (getenv env) as [e|] eqn:Ee.
  - exists e. split; [apply word_quote; eauto|auto].
  - assert (D : exists w, word bin w /\ (@None bytes = Some w \/ @None bytes = None /\
        ((exists a, argv0 = Some a /\ In "/"%char a /\ w = dirname a ++ B "/" ++ bin /\ access w = true) \/ w = bin))).
    { exists bin. split; [apply word_plain; assumption|]. auto. }
    destruct argv0 as [a|]; [|exact D]. destruct (existsb _ a) eqn:Es; [|exact D].
    destruct (access (dirname a ++ B "/" ++ bin)) eqn:Ex; [|exact D].
    exists (dirname a ++ B "/" ++ bin). split.
    + apply word_quote. apply no_nul_app. split; [apply dirname_no_nul; exact Ha|]. apply no_nul_app.
      split; [apply no_nulb_spec; reflexivity|exact Hn].
    + right. split; [reflexivity|]. left. exists a. apply existsb_exists in Es. destruct Es as (c & Hc & E). apply eqb_true in E.
      subst c. auto.
Qed.
Print Assumptions C47_program.
Example C47_program_example :
  find_binary (fun _ => None) (fun p => beq p (B "/opt/my bin/blogc")) (Some (B "/opt/my bin/blogc-make")) (B "blogc") (B "BLOGC")
  = B "'/opt/my bin/blogc'".
Proof. vm_compute. reflexivity. Qed.

(* C47: the server's command line, for any host, port, number of threads and output directory *)
Theorem C47_runserver : forall c bin host port threads,
  word (e_runserver c) bin -> opt_ok host -> opt_ok port -> opt_ok threads -> no_nul (e_output_dir c) ->
  sh_words (exec_runserver c host port threads)
  = Some ([bin] ++ opt (B "-t") host ++ opt (B "-p") port ++ opt (B "-m") threads ++ [e_output_dir c]).
Proof.
  intros c bin host port threads Hb Hh Hp Ht Ho. unfold exec_runserver. apply starts_adds.
  - unfold sh_words. rewrite Hb. reflexivity.
  - exists [], bin. apply Hb.
  - apply adds_app; [apply (@adds_option (B "t")); [apply plain_all; reflexivity|exact Hh]|].
    apply adds_app; [apply (@adds_option (B "p")); [apply plain_all; reflexivity|exact Hp]|].
    apply adds_app; [apply (@adds_option (B "m")); [apply plain_all; reflexivity|exact Ht]|].
    apply (@adds_word (shell_quote (Some (e_output_dir c)))). apply word_quote. exact Ho.
Qed.
Print Assumptions C47_runserver.
Example C47_runserver_example :
  sh_words (exec_runserver (Ectx (B "blogc") (B "blogc-runserver") (Settings trie_new trie_new None None None None) (B "/a b") false)
    (Some (B "127.0.0.1")) (Some (B "80;")) None)
  = Some [B "blogc-runserver"; B "-t"; B "127.0.0.1"; B "-p"; B "80;"; B "/a b"].
Proof. vm_compute. reflexivity. Qed.

(* ---- the list of sources ---- *)
(* an absolute path that is one line and does not end in white space *)
Definition line_path (p : bytes) : Prop :=
  no_nul p /\ ~ In CR p /\ ~ In LF p /\ strip p = p /\ exists r, p = "/"%char :: r.

Lemma lines_from_line p r : ~ In CR p -> ~ In LF p -> forall l, lines_from l (p ++ LF :: r) = (l ++ p) :: lines_from [] r.
Proof.
  induction p as [|c p IH]; intros H1 H2 l; cbn [lines_from app]; [rewrite app_nil_r; reflexivity|].
  assert (E : eol c = false).
  { unfold eol. rewrite orb_false_iff, !eqb_false. split; intros ->; [apply H1|apply H2]; left; reflexivity. }
  rewrite E, IH, <- app_assoc; [reflexivity|intro; apply H1; right; assumption|intro; apply H2; right; assumption].
Qed.
Theorem C47_sources : forall only_first sources, Forall line_path sources ->
  exists l, filelist_parse (sources_input only_first sources) = Ok l
    /\ map snd l = (if only_first then firstn 1 sources else sources) /\ filelist_free l = Ok tt.
Proof.
  intros only_first sources H. unfold sources_input.
  assert (H' : Forall line_path (if only_first then firstn 1 sources else sources)).
  { destruct only_first; [|exact H]. destruct H; constructor; auto. }
  revert H'. generalize (if only_first then firstn 1 sources else sources). clear. intros ps H.
  assert (L : lines (flat_map (fun s => s ++ [LF]) ps) = ps ++ [[]]).
  { unfold lines. induction H as [|p ps (Hn & Hc & Hl & _) H IH]; [reflexivity|]. cbn [flat_map].
    rewrite <- app_assoc. cbn [app]. rewrite lines_from_line by assumption. cbn [app]. rewrite IH. reflexivity. }
  destruct (filelist_free_spec (flat_map (fun s => s ++ [LF]) ps)) as (l & El & Es & Ef). exists l. split; [exact El|].
  unfold entries in Es. rewrite L in Es, Ef. split.
  - rewrite Es. clear L El Es Ef. induction H as [|p ps (Hn & Hc & Hl & Hs & r & Er) H IH]; [reflexivity|].
    cbn [app filter]. assert (W : wanted p = true) by (subst p; reflexivity). rewrite W. cbn [map].
    rewrite (cstr_id Hn), Hs. f_equal. exact IH.
  - rewrite Ef. replace (existsb (fun l0 => wanted l0 && odd_start l0) (ps ++ [[]])) with false; [reflexivity|].
    symmetry. clear L El Es Ef. induction H as [|p ps (Hn & Hc & Hl & Hs & r & Er) H IH]; [reflexivity|].
    cbn [app existsb]. rewrite IH, orb_false_r. subst p. reflexivity.
Qed.
Print Assumptions C47_sources.
Example C47_sources_example : filelist_parse (sources_input false [B "/r/a b.txt"; B "/r/#c.txt"]) = Ok [(0, B "/r/a b.txt"); (0, B "/r/#c.txt")].
Proof. vm_compute. reflexivity. Qed.

(* ---- the value printed by blogc -p ---- *)
Theorem C47_value : forall v err, no_nul v -> get_variable_result (CmdDone 0 (Some (v ++ [LF])) err) = Some v.
Proof.
  intros v err H. unfold get_variable_result. cbn [Nat.eqb negb].
  assert (N : no_nul (v ++ [LF])) by (apply no_nul_app; split; [exact H|apply no_nulb_spec; reflexivity]).
  rewrite (cstr_id N). rewrite app_length. cbn [length]. replace (length v + 1 - 1) with (length v) by lia.
  unfold strndup. rewrite firstn_app, Nat.sub_diag, firstn_all. cbn [firstn]. rewrite app_nil_r, (cstr_id H). reflexivity.
Qed.
Print Assumptions C47_value.
(* a command that failed, or printed nothing, tells nothing *)
Theorem C47_no_value : forall status out err, status <> 0 \/ out = None -> get_variable_result (CmdDone status out err) = None.
Proof.
  intros status out err [H| ->]; cbn [get_variable_result]; [|destruct (negb _); reflexivity]. apply Nat.eqb_neq in H. rewrite H. reflexivity.
Qed.
Print Assumptions C47_no_value.
Example C47_no_value_example : get_variable_result (CmdDone 3 (Some (B "5" ++ [LF])) None) = None.
Proof. reflexivity. Qed.
