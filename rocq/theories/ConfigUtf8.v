(* Settings files made of UTF-8 give UTF-8 values. *)
From Verif Require Import Base Utils UtilsProofs Utf8 Utf8Proofs Utf8Text Trie Content BlockUtf8 SourceUtf8 Config Settings.
#[local] Open Scope nat_scope.
#[local] Arguments B : simpl never.

Section Values.
Variable V : Type.
Variable P : V -> Prop.
Definition opt (d : option V) : Prop := forall v, d = Some v -> P v.
Definition every (t : trie V) : Prop := Forall P (trie_free t).
Lemma every_node c d ch nx : every (Node c d ch nx) <-> opt d /\ every ch /\ every nx.
Proof.
  unfold every. cbn [trie_free]. rewrite !Forall_app. split.
  - intros (H1 & H2 & H3). split; [|auto]. intros t ->. inversion H1; assumption.
  - intros (H1 & H2 & H3). split; [|auto]. destruct d; constructor; [apply H1; reflexivity|constructor].
Qed.
Lemma every_insert t k v : P v -> every t -> every (trie_insert t k v).
Proof.
  intros Hv Ht. change (every (fst (insert_go (k ++ [NUL]) v t))). revert t Ht. generalize (k ++ [NUL]). clear k. intro k.
  induction k as [|c k IH]; intros t Ht; [exact Ht|]. cbn [insert_go]. assert (S : opt (Some v)) by (intros x X; injection X as <-; exact Hv).
  induction t as [|c0 d ch _ nx IHn].
  - destruct (c == NUL).
    + apply every_node. split; [exact S|split; constructor].
    + pose proof (IH Nil (Forall_nil P)) as K. destruct (insert_go k v Nil) as [t fr]. apply every_node. split; [discriminate|split; [exact K|constructor]].
  - apply every_node in Ht. destruct Ht as (H1 & H2 & H3). destruct (c0 == c).
    + destruct (c == NUL).
      * apply every_node. split; [exact S|auto].
      * pose proof (IH ch H2) as K. destruct (insert_go k v ch) as [t fr]. apply every_node. auto.
    + specialize (IHn H3). match goal with |- every (fst (let '(_, _) := ?x in _)) => destruct x as [nx' fr] end. apply every_node. auto.
Qed.
Lemma every_lookup t k v : every t -> trie_lookup t k = Some v -> P v.
Proof.
  unfold trie_lookup. generalize (k ++ [NUL]). clear k. intro k. revert t. induction k as [|c k IH]; intros t Ht; [discriminate|]. cbn [lookup_go].
  induction t as [|c0 d ch _ nx IHn]; [discriminate|]. apply every_node in Ht. destruct Ht as (H1 & H2 & H3).
  destruct (c0 == c); [destruct (c0 == NUL); [exact (H1 v)|apply IH; exact H2]|apply IHn; exact H3].
Qed.
End Values.

Definition secok (d : csection) : Prop := match d with SMap m => tall m | SList l => Forall ok l end.
Definition novalue (q : cstate) : bool :=
  match q with CStart | CSectionStart | CSection | CKey | CValuePostQuoted | CListPostQuoted => true | _ => false end.
(* the value so far stands in the same place of a character as the text read so far *)
Definition cu (src : bytes) (cur : nat) (s : cst) : Prop :=
  every secok (c_root s) /\ (forall n d, c_section s = Some (n, d) -> secok d) /\
  (forall v, c_value s = Some v -> run_spec 0 v = run_spec 0 (firstn cur src)) /\
  (c_state s = CStart -> bd src cur) /\ (novalue (c_state s) = true -> c_value s = None) /\ (c_escaped s = true -> c_value s <> None).
Ltac conjs := repeat match goal with |- _ /\ _ => apply conj end.

Lemma append_ok src cur s c q e : nth_error src cur = Some c -> cu src cur s -> novalue q = false -> (e = true -> c_value s <> None) ->
  cu src (cur + 1) (set_escaped (set_state (value_append s c) q) e).
Proof.
  intros E (H1 & H2 & H3 & H4 & H5 & H6) N Ne. assert (Q : q <> CStart) by (intros ->; discriminate N).
  unfold value_append. destruct (c_value s) as [v|] eqn:Ev; unfold cu; cbn; rewrite ?Ev, ?N; conjs; auto; try discriminate; try contradiction.
  intros x X; injection X as <-. rewrite (firstn_snoc E), !run_spec_app. rewrite (H3 v eq_refl). reflexivity.
Qed.
(* what the sections hold *)
Definition su (s : cst) : Prop := every secok (c_root s) /\ (forall n d, c_section s = Some (n, d) -> secok d).
Lemma map_ok s v s' : ok v -> su s -> map_insert s v = Ok s' -> su s' /\ c_state s' = c_state s /\ c_value s' = c_value s /\ c_escaped s' = c_escaped s.
Proof.
  intros Hv (H1 & H2). unfold map_insert. destruct (c_section s) as [[n [m|l]]|] eqn:Es; try discriminate. destruct (c_key s) as [b|].
  - intro X; injection X as <-. cbn. split; [|auto]. assert (K : secok (SMap (trie_insert m (strip b) v))) by (apply tall_insert; [exact (H2 n _ eq_refl)|exact Hv]).
    split; cbn; [apply every_insert; assumption|]. intros ? ? X; injection X as <- <-. exact K.
  - intro X; injection X as <-. unfold su. rewrite Es. auto 8.
Qed.
Lemma list_ok s v s' : ok v -> su s -> list_append s v = Ok s' -> su s' /\ c_state s' = c_state s /\ c_value s' = c_value s /\ c_escaped s' = c_escaped s.
Proof.
  intros Hv (H1 & H2). unfold list_append. destruct (c_section s) as [[n [m|l]]|] eqn:Es; try discriminate.
  intro X; injection X as <-. cbn. split; [|auto]. assert (K : secok (SList (l ++ [v]))) by (apply Forall_app; split; [exact (H2 n _ eq_refl)|constructor; [exact Hv|constructor]]).
  split; cbn; [apply every_insert; assumption|]. intros ? ? X; injection X as <- <-. exact K.
Qed.

Lemma cfg_step_ok lists src cur s c a : ok src -> nth_error src cur = Some c -> cu src cur s ->
  cfg_step lists src cur s c (Nat.eqb cur (length src - 1)) = Ok a ->
  match a with Next s' => cu src (cur + 1) s' | Again s' => cu src cur s' | Comment s' => cu src cur s' /\ c_state s' = CStart | Fail _ => True end.
Proof.
  intros Hs Ec I. set (is_last := Nat.eqb cur (length src - 1)). pose proof I as (H1 & H2 & H3 & H4 & H5 & H6).
  assert (L : is_last = true -> bd src (cur + 1)).
  { unfold is_last. intro E. apply Nat.eqb_eq in E. apply bd_end; [exact Hs|lia]. }
  assert (A : asc c = true -> bd src cur /\ bd src (cur + 1)) by exact (bd_asc Hs Ec).
  assert (KEEP : asc c = true -> forall q, (novalue q = true -> c_value s = None) -> cu src (cur + 1) (set_state s q)).
  { intros Ha q Hq. destruct (A Ha) as [B1 B2]. unfold cu. cbn. conjs; auto. intros v Hv. rewrite (H3 v Hv). unfold bd in B1, B2. congruence. }
  assert (SAME : novalue (c_state s) = true -> c_state s <> CStart -> cu src (cur + 1) s).
  { intros N Q. specialize (H5 N). unfold cu. rewrite H5. conjs; auto; try discriminate; try contradiction. intro X; destruct (H6 X H5). }
  assert (KEEP0 : asc c = true -> cu src (cur + 1) s).
  { intro Ha. pose proof (KEEP Ha (c_state s) H5) as K. replace (set_state s (c_state s)) with s in K by (destruct s; reflexivity). exact K. }
  assert (NL : nl c = true -> asc c = true) by (intro E; exact (@asc_of nl eq_refl c E)).
  assert (HB : hblank c = true -> asc c = true) by (intro E; exact (@asc_of hblank eq_refl c E)).
  assert (DQA : (c == DQ) = true -> asc c = true) by (intro E; apply eqb_true in E; subst c; reflexivity).
  unfold cfg_step. destruct (c_escaped s) eqn:Ee.
  { intro X; injection X as <-. specialize (H6 eq_refl). assert (N : novalue (c_state s) = false) by (destruct (novalue (c_state s)); [destruct (H6 (H5 eq_refl))|reflexivity]).
    pose proof (@append_ok src cur s c (c_state s) false Ec I N) as K.
    replace (set_escaped (value_append s c) false) with (set_escaped (set_state (value_append s c) (c_state s)) false); [apply K; discriminate|].
    unfold value_append. destruct (c_value s); destruct s; reflexivity. }
  destruct (_ && (c == BSL)) eqn:Eb.
  { intro X; injection X as <-. apply andb_true_iff in Eb. destruct Eb as [Eb Ec']. apply eqb_true in Ec'. subst c. destruct (A eq_refl) as [B1 B2].
    destruct (c_value s) as [v|] eqn:Ev; [|discriminate]. unfold cu. cbn. rewrite Ev. conjs; auto; try discriminate.
    intros x X; injection X as <-. rewrite (H3 v eq_refl). unfold bd in B1, B2. congruence. }
  (* a stored value *)
  assert (FIN : forall s1 s2 q, su s1 -> (q = CStart -> bd src (cur + 1)) -> c_escaped s1 = false ->
     (s2 = set_state (set_value (set_key s1 None) None) q \/ s2 = set_state (set_value s1 None) q) -> cu src (cur + 1) s2).
  { intros s1 s2 q (G1 & G2) Q N [-> | ->]; unfold cu; cbn; rewrite N; conjs; auto; discriminate. }
  assert (S0 : su s) by (split; assumption).
  assert (AP : forall q, novalue q = false -> cu src (cur + 1) (set_state (value_append s c) q)).
  { intros q N. pose proof (@append_ok src cur s c q false Ec I N) as K. replace (set_state (value_append s c) q) with (set_escaped (set_state (value_append s c) q) false); [apply K; discriminate|].
    unfold value_append. destruct (c_value s); destruct s; cbn in *; subst; reflexivity. }
  assert (AP0 : novalue (c_state s) = false -> cu src (cur + 1) (value_append s c)).
  { intro N. specialize (AP _ N). replace (value_append s c) with (set_state (value_append s c) (c_state s)); [exact AP|]. unfold value_append. destruct (c_value s); destruct s; reflexivity. }
  (* the end of a line or of the file: the text is whole *)
  assert (WH : nl c || is_last = true -> novalue (c_state s) = false -> forall v, c_value (if is_last && negb (nl c) then value_append s c else s) = Some v ->
    ok v /\ su (if is_last && negb (nl c) then value_append s c else s) /\ c_escaped (if is_last && negb (nl c) then value_append s c else s) = false /\ bd src (cur + 1)).
  { intros E N v. destruct (nl c) eqn:En; cbn [negb andb].
    - rewrite andb_false_r. intro Ev. destruct (A (NL eq_refl)) as [B1 B2]. conjs; auto; try apply S0. unfold ok. rewrite (H3 v Ev). exact B1.
    - cbn [orb] in E. rewrite E. cbn [andb]. intro Ev. specialize (AP0 N). specialize (L E). destruct AP0 as (G1 & G2 & G3 & _). conjs; auto.
      + unfold ok. rewrite (G3 v Ev). exact L.
      + split; assumption.
      + unfold value_append. destruct (c_value s); exact Ee. }
  destruct (c_state s) eqn:St.
  - destruct ((c == "#"%char) || (c == ";"%char)). { intro X; injection X as <-. auto. } destruct ((c == SP) || (c == TAB) || (c == CR) || (c == LF)) eqn:E1.
    { intro X; injection X as <-. apply KEEP0. exact (@asc_of (fun c => (c == SP) || (c == TAB) || (c == CR) || (c == LF)) eq_refl c E1). }
    destruct (c == "["%char) eqn:E2. { intro X; injection X as <-. apply KEEP; [apply eqb_true in E2; subst c; reflexivity|]. intros _. apply H5. reflexivity. }
    specialize (H4 eq_refl). specialize (H5 eq_refl). destruct (c_section s) as [[n [m|l]]|] eqn:Es; intro X; injection X as <-; [| |exact Logic.I].
    + unfold cu. cbn. rewrite Es, Ee. conjs; auto; discriminate.
    + rewrite H5. unfold cu. cbn. rewrite Es, Ee. conjs; auto; try discriminate. intros v X; injection X as <-. symmetry. exact H4.
  - intro X; injection X as <-. unfold cu. cbn. rewrite H5, Ee by reflexivity. conjs; auto; discriminate.
  - destruct (c == "]"%char) eqn:E.
    + intro X; injection X as <-. assert (Ha : asc c = true) by (apply eqb_true in E; subst c; reflexivity). destruct (A Ha) as [B1 B2]. cbv zeta.
      set (d := if existsb _ _ then _ else _). assert (K : secok d) by (unfold d; destruct (existsb _ _); constructor).
      unfold cu. cbn. rewrite H5, Ee by reflexivity. conjs; auto; try discriminate; [apply every_insert; assumption|]. intros ? ? X; injection X as _ <-. exact K.
    + destruct (nl c); cbn [negb]; intro X; injection X as <-; [exact Logic.I|]. apply SAME; [reflexivity|discriminate].
  - destruct (c == "="%char) eqn:E.
    + assert (Ha : asc c = true) by (apply eqb_true in E; subst c; reflexivity). destruct (A Ha) as [B1 B2]. cbv zeta. specialize (H5 eq_refl). destruct is_last.
      * match goal with |- rbind ?x _ = _ -> _ => destruct x as [s2| |] eqn:Em; cbn [rbind]; try discriminate end. intro X; injection X as <-.
        apply map_ok in Em; [|exact ok_nil|exact S0]. destruct Em as ((G1 & G2) & G3 & G4 & G5). cbn in G3, G4, G5. unfold cu. cbn. rewrite G3, G4, G5, H5, Ee. conjs; auto; discriminate.
      * cbn [c_value set_state set_key]. rewrite H5. intro X; injection X as <-. unfold cu. cbn. rewrite Ee. conjs; auto; try discriminate. intros v X; injection X as <-. symmetry. exact B2.
    + destruct (negb (nl c) && negb is_last); intro X; injection X as <-; [|exact Logic.I]. apply SAME; [reflexivity|discriminate].
  - destruct (hblank c) eqn:E. { intro X; injection X as <-. apply KEEP0, HB. reflexivity. }
    destruct (c == DQ) eqn:E2. { intro X; injection X as <-. apply KEEP; [apply DQA; reflexivity|discriminate]. }
    destruct (nl c || is_last); intro X; injection X as <-; [|apply AP; reflexivity]. unfold cu. cbn. rewrite Ee. conjs; auto; discriminate.
  - destruct (c == DQ) eqn:E; [|intro X; injection X as <-; apply AP0; reflexivity]. destruct (c_value s) as [v|] eqn:Ev; [|discriminate].
    destruct (A (DQA eq_refl)) as [B1 B2]. match goal with |- rbind ?x _ = _ -> _ => destruct x as [s2| |] eqn:Em; cbn [rbind]; try discriminate end. intro X; injection X as <-.
    apply map_ok in Em; [|apply ok_cstr; unfold ok; rewrite (H3 v eq_refl); exact B1|exact S0]. destruct Em as (G1 & G2 & G3 & G4).
    eapply FIN; [exact G1| |rewrite G4; exact Ee|left; reflexivity]. discriminate.
  - destruct (hblank c); [intro X; injection X as <-; apply SAME; [reflexivity|discriminate]|]. destruct (nl c || is_last) eqn:E; intro X; injection X as <-; [|exact Logic.I].
    specialize (H5 eq_refl). unfold cu. cbn. rewrite Ee, H5. conjs; auto; try discriminate. intros _. apply orb_true_iff in E. destruct E as [E|E]; [apply (A (NL E))|apply L; exact E].
  - destruct (nl c || is_last) eqn:E; [|intro X; injection X as <-; apply AP0; reflexivity]. cbv zeta. specialize (WH eq_refl eq_refl).
    set (s1 := if is_last && negb (nl c) then value_append s c else s) in *. destruct (c_value s1) as [v|] eqn:Ev; [|discriminate]. destruct (WH v eq_refl) as (W1 & W2 & W3 & W4).
    match goal with |- rbind ?x _ = _ -> _ => destruct x as [s2| |] eqn:Em; cbn [rbind]; try discriminate end. intro X; injection X as <-.
    apply map_ok in Em; [|apply ok_rstrip, ok_cstr; exact W1|exact W2]. destruct Em as (G1 & G2 & G3 & G4).
    eapply FIN; [exact G1|intros _; exact W4|rewrite G4; exact W3|left; reflexivity].
  - destruct (hblank c) eqn:E. { intro X; injection X as <-. apply KEEP0, HB. reflexivity. }
    destruct (c == DQ) eqn:E2; intro X; injection X as <-; [|apply AP; reflexivity]. apply KEEP; [apply DQA; reflexivity|discriminate].
  - destruct (c == DQ) eqn:E; [|intro X; injection X as <-; apply AP0; reflexivity]. destruct (c_value s) as [v|] eqn:Ev; [|discriminate].
    destruct (A (DQA eq_refl)) as [B1 B2]. match goal with |- rbind ?x _ = _ -> _ => destruct x as [s2| |] eqn:Em; cbn [rbind]; try discriminate end. intro X; injection X as <-.
    apply list_ok in Em; [|apply ok_cstr; unfold ok; rewrite (H3 v eq_refl); exact B1|exact S0]. destruct Em as (G1 & G2 & G3 & G4).
    eapply FIN; [exact G1| |rewrite G4; exact Ee|right; reflexivity]. discriminate.
  - destruct (hblank c); [intro X; injection X as <-; apply SAME; [reflexivity|discriminate]|]. destruct (nl c || is_last) eqn:E; intro X; injection X as <-; [|exact Logic.I].
    specialize (H5 eq_refl). unfold cu. cbn. rewrite Ee, H5. conjs; auto; try discriminate. intros _. apply orb_true_iff in E. destruct E as [E|E]; [apply (A (NL E))|apply L; exact E].
  - destruct (nl c || is_last) eqn:E; [|intro X; injection X as <-; apply AP0; reflexivity]. cbv zeta. specialize (WH eq_refl eq_refl).
    set (s1 := if is_last && negb (nl c) then value_append s c else s) in *. destruct (c_value s1) as [v|] eqn:Ev; [|discriminate]. destruct (WH v eq_refl) as (W1 & W2 & W3 & W4).
    match goal with |- rbind ?x _ = _ -> _ => destruct x as [s2| |] eqn:Em; cbn [rbind]; try discriminate end. intro X; injection X as <-.
    apply list_ok in Em; [|apply ok_strip, ok_cstr; exact W1|exact W2]. destruct Em as (G1 & G2 & G3 & G4).
    eapply FIN; [exact G1|intros _; exact W4|rewrite G4; exact W3|right; reflexivity].
Qed.
Lemma comment_bd src : ok src -> forall f cur e, comment_end f src cur = Ok e -> bd src (e + 1).
Proof.
  intros Hs. induction f as [|f IH]; intros cur e; [discriminate|]. cbn [comment_end]. destruct (Nat.ltb_spec cur (length src)) as [L|L].
  - unfold rd. destruct (nth_error src cur) as [c|] eqn:Ec; cbn [rbind]; [|discriminate]. destruct (nl c) eqn:E; [|apply IH].
    intro X; injection X as <-. apply (bd_asc Hs Ec). exact (@asc_of nl eq_refl c E).
  - intro X; injection X as <-. apply bd_end; [exact Hs|lia].
Qed.
Theorem config_utf8 lists src cfg : ok src -> config_parse lists src = Ok (Datatypes.inl cfg) -> every secok cfg.
Proof.
  intro Hs. unfold config_parse. assert (G : forall f cur s, cu src cur s -> cfg_loop f lists src cur s = Ok (Datatypes.inl cfg) -> every secok cfg).
  { induction f as [|f IH]; intros cur s I; [discriminate|]. cbn [cfg_loop]. destruct (Nat.ltb cur (length src)); [|intro X; injection X as <-; apply I].
    unfold rd. destruct (nth_error src cur) as [c|] eqn:Ec; cbn [rbind]; [|discriminate].
    destruct (cfg_step _ _ _ _ _ _) as [a| |] eqn:E; cbn [rbind]; try discriminate. apply (cfg_step_ok Hs Ec I) in E. destruct a as [s'|s'|s'|e]; [apply IH; exact E|apply IH; exact E| |discriminate].
    destruct (comment_end _ _ _) as [e| |] eqn:Ee; cbn [rbind]; try discriminate. apply IH. apply (comment_bd Hs) in Ee.
    destruct E as ((H1 & H2 & H3 & H4 & H5 & H6) & St). rewrite St in *. specialize (H5 eq_refl). rewrite H5 in *. unfold cu. rewrite St, H5. conjs; auto; discriminate. }
  apply G. unfold cu. cbn. conjs; try discriminate; auto; [constructor|]. intros _. apply bd_0.
Qed.

Definition lok (o : option (list bytes)) : Prop := forall l, o = Some l -> Forall ok l.
Theorem settings_utf8 src st : ok src -> settings_parse src = Ok (Datatypes.inl st) ->
  tall (s_global st) /\ tall (s_settings st) /\ lok (s_posts st) /\ lok (s_pages st) /\ lok (s_copy st) /\ lok (s_tags st).
Proof.
  intro Hs. unfold settings_parse. destruct (config_parse list_sections src) as [[cfg|e]| |] eqn:Ec; cbn [rbind]; try discriminate. apply (config_utf8 Hs) in Ec.
  assert (GET : forall sec k v, config_get cfg sec k = Some v -> ok v).
  { intros sec k v. unfold config_get. destruct (trie_lookup cfg sec) as [[m|l]|] eqn:E; try discriminate. apply (every_lookup Ec) in E. apply tall_lookup. exact E. }
  assert (GL : forall sec, lok (config_get_list cfg sec)).
  { intros sec l. unfold config_get_list. destruct (trie_lookup cfg sec) as [[m|x]|] eqn:E; try discriminate. apply (every_lookup Ec) in E. intro X; injection X as <-. exact E. }
  match goal with |- (let (_, _) := ?x in _) = _ -> _ => destruct x as [section keys] end.
  assert (GG : forall keys acc g, tall acc -> globals cfg section keys acc = Ok (Datatypes.inl g) -> tall g).
  { induction keys0 as [|k r IH]; intros acc g Ha; cbn [globals]; [intro X; injection X as <-; exact Ha|]. destruct (key_check _ _ _ _); [discriminate|].
    destruct (config_get cfg section k) eqn:E; [|discriminate]. apply IH. apply tall_insert; [exact Ha|]. exact (GET _ _ _ E). }
  destruct (globals _ _ _ _) as [[g|e]| |] eqn:Eg; cbn [rbind]; try discriminate. apply GG in Eg; [|exact tall_new].
  assert (WD : tall (with_defaults cfg default_settings trie_new)).
  { assert (D : forall l acc, Forall (fun p => ook (snd p)) l -> tall acc -> tall (with_defaults cfg l acc)).
    { induction l as [|[k d] r IH]; intros acc Hl Ha; [exact Ha|]. inversion Hl as [|? ? Hd Hr]; subst. cbn [with_defaults]. apply IH; [exact Hr|].
      destruct (config_get cfg (B "settings") k) eqn:E; [apply tall_insert; [exact Ha|exact (GET _ _ _ E)]|]. destruct d; [|exact Ha]. apply tall_insert; [exact Ha|]. apply Hd. reflexivity. }
    apply D; [|exact tall_new]. apply Forall_forall. intros [k d] Hi. cbn [snd]. intros t ->.
    assert (K : forallb (fun p : bytes * option bytes => match snd p with Some t => forallb asc t | None => true end) default_settings = true) by (vm_compute; reflexivity).
    rewrite forallb_forall in K. apply ok_asc. exact (K _ Hi). }
  revert WD. generalize (with_defaults cfg default_settings trie_new). intros wd WD.
  destruct (required _ _ g); [discriminate|]. intro X; injection X as <-. cbn [s_global s_settings s_posts s_pages s_copy s_tags]. conjs; try apply GL; [exact Eg|exact WD|].
  intros l E. destruct (config_get_list cfg (B "copy")) eqn:E1; [injection E as <-; exact (GL _ _ E1)|exact (GL _ _ E)].
Qed.
