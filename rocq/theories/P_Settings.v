(* C45: what a blogcfile is. *)
From Verif Require Import Base Utils Trie TrieProofs Config ConfigProofs ConfigWf Settings SettingsSpec.
#[local] Arguments B : simpl never.

Lemma letters_spec c : In c letters <-> is_upper c = true.
Proof.
  split.
  - intro H. apply (proj1 (Forall_forall (fun c => is_upper c = true) letters)); [|exact H].
    unfold letters. cbv. repeat constructor.
  - intro H. assert (A : forallb (fun c => implb (is_upper c) (existsb (fun x => x == c) letters)) all_bytes = true)
      by (vm_compute; reflexivity).
    pose proof (forall_bytes A c) as E. cbv beta in E. rewrite H in E. cbn [implb] in E.
    apply existsb_exists in E. destruct E as (x & Hx & E). apply eqb_true in E. subst x. exact Hx.
Qed.
Lemma more_spec c : In c more <-> is_upper c || is_digit c || (c == "_"%char) = true.
Proof.
  split.
  - intro H. apply (proj1 (Forall_forall (fun c => is_upper c || is_digit c || (c == "_"%char) = true) more));
      [|exact H]. unfold more. cbv. repeat constructor.
  - intro H. assert (A : forallb (fun c => implb (is_upper c || is_digit c || (c == "_"%char))
        (existsb (fun x => x == c) more)) all_bytes = true) by (vm_compute; reflexivity).
    pose proof (forall_bytes A c) as E. cbv beta in E. rewrite H in E. cbn [implb] in E.
    apply existsb_exists in E. destruct E as (x & Hx & E). apply eqb_true in E. subst x. exact Hx.
Qed.

Lemma key_check_rest sec k r : forall j, key_check sec k (S j) r = None <-> Forall (fun x => In x more) r.
Proof.
  induction r as [|c r IH]; intro j; cbn [key_check Nat.eqb]; [split; auto|].
  destruct (is_upper c || is_digit c || (c == "_"%char)) eqn:E; cbn [negb].
  - replace (S j + 1) with (S (j + 1)) by lia. rewrite IH. split.
    + intro H. constructor; [apply more_spec; exact E|exact H].
    + intro H. inv H. assumption.
  - split; [discriminate|]. intro H. inv H. apply more_spec in H2. congruence.
Qed.
Lemma key_check_spec sec k : key_check sec k 0 k = None <-> valid_name k \/ k = [].
Proof.
  destruct k as [|c r]; cbn [key_check Nat.eqb]; [tauto|].
  destruct (is_upper c) eqn:E; cbn [negb].
  - cbn [Nat.add]. rewrite key_check_rest. split.
    + intro H. left. exists c, r. split; [reflexivity|]. split; [apply letters_spec; exact E|exact H].
    + intros [(c' & r' & H & _ & H')|]; [inv H; exact H'|discriminate].
  - split; [discriminate|]. intros [(c' & r' & H & H' & _)|]; [|discriminate]. inv H.
    apply letters_spec in H'. congruence.
Qed.

(* the loop over the keys *)
Lemma globals_spec cfg sec m : wf m -> (forall k, config_get cfg sec k = trie_lookup m k) ->
  forall keys acc, (forall k, In k keys -> no_nul k /\ trie_lookup m k <> None) ->
  (exists g, globals cfg sec keys acc = Ok (inl g)
     /\ (forall k, In k keys -> valid_name k \/ k = [])
     /\ forall k, no_nul k -> trie_lookup g k = (if existsb (beq k) keys then trie_lookup m k else trie_lookup acc k))
  \/ (exists e k, globals cfg sec keys acc = Ok (inr e) /\ In k keys /\ ~ (valid_name k \/ k = [])).
Proof.
  intros Hm Hg. induction keys as [|k keys IH]; intros acc Hk; cbn [globals].
  - left. exists acc. split; [reflexivity|]. split; [intros k []|reflexivity].
  - destruct (key_check sec k 0 k) as [e|] eqn:Ec.
    + right. exists e, k. split; [reflexivity|]. split; [left; reflexivity|].
      rewrite <- (key_check_spec sec). congruence.
    + destruct (Hk k (or_introl eq_refl)) as [Hn Hl]. rewrite Hg.
      destruct (trie_lookup m k) as [v|] eqn:El; [|contradiction].
      destruct (IH (trie_insert acc k v)) as [(g & E & Hv & Hq)|(e & k' & E & Hi & Hv)].
      * intros k' Hi. apply Hk. right. exact Hi.
      * left. exists g. split; [exact E|]. split.
        { intros k' [<-|Hi]; [apply (proj1 (key_check_spec sec k)); exact Ec|auto]. }
        intros k' Hn'. rewrite Hq by exact Hn'. cbn [existsb].
        rewrite trie_lookup_insert by assumption.
        destruct (beq_spec k' k) as [->|Hne]; cbn [orb].
        { rewrite beq_refl. destruct (existsb (beq k) keys); auto. }
        destruct (beq_spec k k') as [->|]; [contradiction|]. reflexivity.
      * right. exists e, k'. split; [exact E|]. split; [right; exact Hi|exact Hv].
Qed.

Lemma required_spec sec names g : required sec names g = None
  <-> forall n, In n names -> exists v, trie_lookup g n = Some v /\ v <> [].
Proof.
  induction names as [|n r IH]; cbn [required]; [split; [intros _ n []|reflexivity]|].
  destruct (trie_lookup g n) as [[|c v]|] eqn:E.
  - split; [discriminate|]. intro H. destruct (H n (or_introl eq_refl)) as (v & Hv & Hne). congruence.
  - rewrite IH. split.
    + intros H n' [<-|Hi]; [exists (c :: v); split; [exact E|discriminate]|auto].
    + intros H n' Hi. apply H. right. exact Hi.
  - split; [discriminate|]. intro H. destruct (H n (or_introl eq_refl)) as (v & Hv & _). congruence.
Qed.

Lemma with_defaults_spec cfg l k : no_nul k -> Forall (fun kd => no_nul (fst kd)) l -> NoDup (map fst l) ->
  forall acc, trie_lookup (with_defaults cfg l acc) k =
    match find (fun kd => beq (fst kd) k) l with
    | Some (_, d) => match setting cfg k d with Some v => Some v | None => trie_lookup acc k end
    | None => trie_lookup acc k
    end.
Proof.
  intros Hk. induction l as [|[k0 d] l IH]; intros Hn Hd acc; cbn [with_defaults find fst]; [reflexivity|].
  inv Hn. inversion Hd; subst. cbn [fst] in *. rewrite IH by assumption.
  destruct (beq_spec k0 k) as [->|Hne].
  - assert (F : find (fun kd => beq (fst kd) k) l = None).
    { destruct (find _ l) as [[k' d']|] eqn:F; [|reflexivity]. apply find_some in F. destruct F as [Hi E].
      apply beq_eq in E. cbn [fst] in E. subst k'. exfalso. apply H3. apply in_map_iff. exists (k, d'). auto. }
    rewrite F. unfold setting. destruct (match config_get cfg (B "settings") k with Some v => Some v | None => d end);
      [|reflexivity]. rewrite trie_lookup_insert, beq_refl by assumption. reflexivity.
  - assert (A : trie_lookup (match (match config_get cfg (B "settings") k0 with Some v => Some v | None => d end) with
              | Some v => trie_insert acc k0 v | None => acc end) k = trie_lookup acc k).
    { destruct (match config_get cfg (B "settings") k0 with Some v => Some v | None => d end); [|reflexivity].
      rewrite trie_lookup_insert by assumption. destruct (beq_spec k0 k); [contradiction|reflexivity]. }
    rewrite A. reflexivity.
Qed.

Lemma same_settings k : find (fun kd => beq (fst kd) k) default_settings = find (fun kd => beq (fst kd) k) documented.
Proof.
  destruct (find _ documented) as [[k' d]|] eqn:F.
  - apply find_some in F. destruct F as [Hi E]. apply beq_eq in E. cbn [fst] in E. subst k'.
    assert (A : Forall (fun kd => find (fun kd' => beq (fst kd') (fst kd)) default_settings = Some kd) documented)
      by (unfold documented; repeat (constructor; [vm_compute; reflexivity|]); constructor).
    rewrite Forall_forall in A. exact (A _ Hi).
  - destruct (find _ default_settings) as [[k' d]|] eqn:G; [|reflexivity].
    apply find_some in G. destruct G as [Hi E]. apply beq_eq in E. cbn [fst] in E. subst k'.
    assert (A : Forall (fun kd => find (fun kd' => beq (fst kd') (fst kd)) documented = Some kd) default_settings)
      by (unfold default_settings; repeat (constructor; [vm_compute; reflexivity|]); constructor).
    rewrite Forall_forall in A. specialize (A _ Hi). cbn [fst] in A. congruence.
Qed.
Lemma documented_find k d : In (k, d) documented -> find (fun kd => beq (fst kd) k) documented = Some (k, d).
Proof.
  intro Hi.
  assert (A : Forall (fun kd => find (fun kd' => beq (fst kd') (fst kd)) documented = Some kd) documented)
    by (unfold documented; repeat (constructor; [vm_compute; reflexivity|]); constructor).
  rewrite Forall_forall in A. exact (A _ Hi).
Qed.
Lemma default_keys_ok : Forall (fun kd : bytes * option bytes => no_nul (fst kd)) default_settings
  /\ NoDup (map fst default_settings).
Proof.
  split.
  - apply Forall_forall. intros kd Hi. apply no_nulb_spec. revert kd Hi. apply Forall_forall.
    unfold default_settings. repeat (constructor; [vm_compute; reflexivity|]). constructor.
  - apply (NoDup_nodup bytes_dec) || idtac.
    assert (E : nodup bytes_dec (map fst default_settings) = map fst default_settings) by (vm_compute; reflexivity).
    rewrite <- E. apply NoDup_nodup.
Qed.

(* what an accepted file yields *)
Definition yields (cfg : config) (sec : bytes) (st : settings) : Prop :=
  (forall k, no_nul k -> trie_lookup (s_global st) k = config_get cfg sec k)
  /\ (forall k d, In (k, d) documented -> trie_lookup (s_settings st) k = setting cfg k d)
  /\ (forall k, no_nul k -> ~ In k (map fst documented) -> trie_lookup (s_settings st) k = None)
  /\ s_posts st = config_get_list cfg (B "posts")
  /\ s_pages st = config_get_list cfg (B "pages")
  /\ s_tags st = config_get_list cfg (B "tags")
  /\ s_copy st = (match config_get_list cfg (B "copy") with
                  | Some l => Some l
                  | None => config_get_list cfg (B "copy_files")
                  end).

Lemma settings_spec src cfg : config_parse list_sections src = Ok (inl cfg) ->
  exists sec, variables_from cfg sec /\
  ((exists st, settings_parse src = Ok (inl st) /\ names_valid_or_empty cfg sec /\ mandatory_set cfg sec
     /\ yields cfg sec st)
   \/ (exists e, settings_parse src = Ok (inr e) /\ ~ (names_valid_or_empty cfg sec /\ mandatory_set cfg sec))).
Proof.
  intro E. pose proof (config_wf E) as [Hw Hs].
  unfold settings_parse. rewrite E. cbn [rbind].
  set (sk := match config_list_keys cfg (B "global") with
             | Some l => (B "global", l)
             | None => match config_list_keys cfg (B "environment") with
                       | Some l => (B "environment", l) | None => (B "global", []) end end).
  assert (Hsk : variables_from cfg (fst sk)
    /\ (exists m, wf m /\ (forall k, config_get cfg (fst sk) k = trie_lookup m k)
                  /\ snd sk = map fst (trie_foreach m))).
  { assert (X : forall sec l, no_nul sec -> config_list_keys cfg sec = Some l ->
       exists m, wf m /\ (forall k, config_get cfg sec k = trie_lookup m k) /\ l = map fst (trie_foreach m)).
    { intros sec l Hn H. unfold config_list_keys in H. destruct (trie_lookup cfg sec) as [[m|l']|] eqn:El; try discriminate.
      inv H. exists m. destruct (Hs _ _ Hn El) as (_ & Hm & _). split; [exact Hm|]. split; [|reflexivity].
      intro k. unfold config_get. rewrite El. reflexivity. }
    unfold sk. destruct (config_list_keys cfg (B "global")) as [l|] eqn:Eg.
    - split; [left; cbn [fst]; split; [congruence|reflexivity]|]. cbn [fst snd].
      apply X; [apply no_nulb_spec; reflexivity|exact Eg].
    - destruct (config_list_keys cfg (B "environment")) as [l|] eqn:Ee.
      + split; [right; left; cbn [fst]; rewrite Ee; split; [exact Eg|split; [discriminate|reflexivity]]|]. cbn [fst snd].
        apply X; [apply no_nulb_spec; reflexivity|exact Ee].
      + split; [right; right; cbn [fst]; auto|]. cbn [fst snd]. exists trie_new. split; [exact I|]. split; [|reflexivity].
        intro k. rewrite trie_lookup_new. unfold config_get, config_list_keys in *.
        destruct (trie_lookup cfg (B "global")) as [[m|l]|]; [discriminate|reflexivity..]. }
  destruct sk as [sec keys]. cbn [fst snd] in Hsk. destruct Hsk as (Hfrom & m & Hm & Hg & ->).
  exists sec. split; [exact Hfrom|].
  assert (Hin : forall k, In k (map fst (trie_foreach m)) <-> no_nul k /\ trie_lookup m k <> None).
  { intro k. rewrite in_map_iff. split.
    - intros ([k' d] & <- & Hi). cbn [fst]. apply foreach_lookup in Hi; [|exact Hm].
      destruct Hi as (Hn & v & _ & El). split; [exact Hn|congruence].
    - intros [Hn Hl]. destruct (trie_lookup m k) as [v|] eqn:El; [|contradiction].
      exists (k, Some v). split; [reflexivity|]. apply foreach_lookup; [exact Hm|]. split; [exact Hn|]. eauto. }
  destruct (@globals_spec cfg sec m Hm Hg (map fst (trie_foreach m)) trie_new (fun k => proj1 (Hin k)))
    as [(g & Eg & Hv & Hq)|(e & k & Eg & Hi & Hv)]; rewrite Eg; cbn [rbind].
  - assert (Hlook : forall k, no_nul k -> trie_lookup g k = config_get cfg sec k).
    { intros k Hn. rewrite Hq, Hg by exact Hn. destruct (existsb (beq k) _) eqn:X; [reflexivity|].
      rewrite trie_lookup_new. destruct (trie_lookup m k) eqn:El; [|reflexivity]. exfalso.
      assert (A : In k (map fst (trie_foreach m))) by (apply Hin; split; [exact Hn|congruence]).
      assert (existsb (beq k) (map fst (trie_foreach m)) = true); [|congruence].
      apply existsb_exists. exists k. split; [exact A|apply beq_refl]. }
    assert (Hnv : names_valid_or_empty cfg sec).
    { intros k v Hn Hk. apply Hv. apply Hin. split; [exact Hn|]. rewrite <- Hg. congruence. }
    assert (Hreq : required sec required_global g = None <-> mandatory_set cfg sec).
    { rewrite required_spec. unfold mandatory_set.
      assert (P : forall n, In n required_global <-> In n mandatory).
      { intro n. unfold required_global, mandatory. cbn [In]. tauto. }
      assert (Q : forall n, In n mandatory -> no_nul n).
      { intros n Hn. apply no_nulb_spec. revert n Hn. apply Forall_forall.
        unfold mandatory. repeat (constructor; [vm_compute; reflexivity|]). constructor. }
      split; intros H n Hn.
      - destruct (H n) as (v & Hl & Hne); [apply P; exact Hn|]. exists v. rewrite <- Hlook; auto.
      - apply P in Hn. destruct (H n Hn) as (v & Hl & Hne). exists v. rewrite Hlook; auto. }
    destruct (required sec required_global g) as [e|] eqn:Er.
    + right. exists e. split; [reflexivity|]. intros [_ Hms]. apply Hreq in Hms. discriminate.
    + left. eexists. split; [reflexivity|]. split; [exact Hnv|]. split; [apply Hreq; reflexivity|].
      unfold yields. cbn [s_global s_settings s_posts s_pages s_tags s_copy].
      destruct default_keys_ok as [Hdn Hdd].
      split; [exact Hlook|]. split; [|split; [|auto]].
      * intros k d Hi.
        assert (Hn : no_nul k).
        { pose proof (documented_find Hi) as F. rewrite <- same_settings in F. apply find_some in F.
          destruct F as [F _]. rewrite Forall_forall in Hdn. exact (Hdn _ F). }
        rewrite with_defaults_spec by assumption. rewrite same_settings, (documented_find Hi).
        rewrite trie_lookup_new. destruct (setting cfg k d); reflexivity.
      * intros k Hn Hni. rewrite with_defaults_spec by assumption. rewrite same_settings.
        destruct (find _ documented) as [[k' d]|] eqn:F; [|apply trie_lookup_new].
        apply find_some in F. destruct F as [Hi Eb]. apply beq_eq in Eb. cbn [fst] in Eb. subst k'.
        exfalso. apply Hni. apply in_map_iff. exists (k, d). auto.
  - right. exists e. split; [reflexivity|]. intros [Hnv _]. apply Hv. apply Hin in Hi. destruct Hi as [Hn Hl].
    destruct (trie_lookup m k) as [v|] eqn:El; [|contradiction]. apply (Hnv k v Hn). rewrite Hg. exact El.
Qed.

(* C45, up to the empty variable name: a blogcfile is accepted exactly if the
   configuration parses, its variables have valid (or empty) names and the five
   mandatory ones are there and not empty; then every variable, every setting (the
   value given, or the documented default) and the lists are those of the file. *)
Theorem C45_settings_partial : forall src : bytes,
  (exists e ce, config_parse list_sections src = Ok (inr ce) /\ settings_parse src = Ok (inr e))
  \/ exists cfg sec, config_parse list_sections src = Ok (inl cfg) /\ variables_from cfg sec /\
     ((names_valid_or_empty cfg sec /\ mandatory_set cfg sec /\
       exists st, settings_parse src = Ok (inl st) /\ yields cfg sec st)
      \/ (~ (names_valid_or_empty cfg sec /\ mandatory_set cfg sec)
          /\ exists e, settings_parse src = Ok (inr e))).
Proof.
  intro src. destruct (config_total list_sections src) as ([cfg|ce] & E & _).
  - right. destruct (settings_spec E) as (sec & Hf & [(st & Es & Hn & Hm & Hy)|(e & Es & Hno)]).
    + exists cfg, sec. split; [exact E|]. split; [exact Hf|]. left. eauto.
    + exists cfg, sec. split; [exact E|]. split; [exact Hf|]. right. eauto.
  - left. unfold settings_parse. rewrite E. cbn [rbind]. eauto.
Qed.
Print Assumptions C45_settings_partial.

(* blogcfiles for the examples *)
Definition ex_head : bytes := B "[global]
AUTHOR_NAME = A
AUTHOR_EMAIL = a@b.c
SITE_TITLE = T
SITE_TAGLINE = L
BASE_DOMAIN = http://x
".
Definition ex_blogcfile : bytes := ex_head ++ B "V_1 = z
[settings]
html_ext = .html
unknown = 1
[posts]
one
two
[copy_files]
a.css
".
Definition seen (A : Type) (src : bytes) (f : settings -> A) : option A :=
  match settings_parse src with Ok (inl st) => Some (f st) | _ => None end.
Lemma seen_some (A : Type) src (f : settings -> A) x : seen src f = Some x ->
  exists st, settings_parse src = Ok (inl st) /\ f st = x.
Proof. unfold seen. destruct (settings_parse src) as [[st|e]| |]; intro H; try discriminate. inv H. eauto. Qed.

(* The full claim, with names_valid, is false: a variable without a name passes. *)
Theorem C45_refuted : exists src cfg sec st v,
  config_parse list_sections src = Ok (inl cfg) /\ variables_from cfg sec
  /\ settings_parse src = Ok (inl st) /\ ~ names_valid cfg sec
  /\ trie_lookup (s_global st) [] = Some v.
Proof.
  exists (ex_head ++ B "=x
").
  assert (H : seen (ex_head ++ B "=x
") (fun st => trie_lookup (s_global st) []) = Some (Some (B "x"))) by (vm_compute; reflexivity).
  revert H. generalize (ex_head ++ B "=x
"). intros src H. destruct (seen_some H) as (st & Es & Hv).
  destruct (C45_settings_partial src) as [(e & ce & _ & X)|(cfg & sec & E & Hf & [(_ & _ & st' & X & Hy)|(_ & e & X)])];
    rewrite Es in X; try discriminate. injection X as <-.
  exists cfg, sec, st, (B "x"). refine (conj E (conj Hf (conj Es (conj _ Hv)))).
  intro Hn. rewrite (proj1 Hy) in Hv by apply no_nul_nil.
  destruct (Hn [] (B "x") no_nul_nil Hv) as (c & r & X & _). discriminate X.
Qed.
Print Assumptions C45_refuted.

Example ex_settings : seen ex_blogcfile (fun st =>
  (map (trie_lookup (s_global st)) [B "V_1"; B "W"],
   map (trie_lookup (s_settings st)) [B "html_ext"; B "post_prefix"; B "index_prefix"; B "locale"; B "unknown"],
   (s_posts st, s_pages st, s_copy st)))
  = Some ([Some (B "z"); None], [Some (B ".html"); Some (B "post"); Some []; None; None],
          (Some [B "one"; B "two"], None, Some [B "a.css"])).
Proof. vm_compute. reflexivity. Qed.
Example ex_environment : exists st, settings_parse (B "[environment]
AUTHOR_NAME=A
AUTHOR_EMAIL=B
SITE_TITLE=C
SITE_TAGLINE=D
BASE_DOMAIN=E
") = Ok (inl st).
Proof. vm_compute. eexists. reflexivity. Qed.
Example ex_lower : exists e, settings_parse (ex_head ++ B "v=1
") = Ok (inr e). Proof. vm_compute. eexists. reflexivity. Qed.
Example ex_missing : exists e, settings_parse (B "[global]
AUTHOR_NAME=A
") = Ok (inr e). Proof. vm_compute. eexists. reflexivity. Qed.
