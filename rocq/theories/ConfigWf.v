(* What every successfully parsed configuration looks like: its tries are
   well-formed, list sections are exactly those asked for, nothing in it holds a NUL. *)
From Verif Require Import Base Utils Trie TrieProofs UtilsProofs Config ConfigProofs ConfigRun.

Definition sec_wf (lists : list bytes) (n : bytes) (d : csection) : Prop :=
  match d with
  | SMap m => ~ In n lists /\ wf m /\ (forall k v, no_nul k -> trie_lookup m k = Some v -> no_nul v)
  | SList l => In n lists /\ Forall no_nul l
  end.
Definition cfg_wf (lists : list bytes) (cfg : config) : Prop :=
  wf cfg /\ forall n d, no_nul n -> trie_lookup cfg n = Some d -> sec_wf lists n d.
Definition minv (lists : list bytes) (s : cst) : Prop :=
  cfg_wf lists (c_root s)
  /\ (forall n d, c_section s = Some (n, d) -> no_nul n /\ sec_wf lists n d)
  /\ (forall k, c_key s = Some k -> no_nul k).

Lemma rstrip_nn s : no_nul s -> no_nul (rstrip s).
Proof.
  intro H. unfold rstrip. generalize (length s). induction n as [|i IH]; [exact H|]. cbn [rstrip_from].
  destruct (negb _).
  - intro Hi. apply H. rewrite <- (firstn_skipn (i + 1) s). apply in_or_app. left. exact Hi.
  - destruct (Nat.eqb i 0); [apply no_nul_nil|exact IH].
Qed.
Lemma strip_nn s : no_nul s -> no_nul (strip s).
Proof.
  intros H. unfold strip. apply rstrip_nn in H. induction (rstrip s) as [|c r IH]; [exact H|].
  cbn [lstrip]. destruct (negb _); [exact H|]. apply IH. apply no_nul_cons in H. apply H.
Qed.
Lemma strndup_nn s n : no_nul (strndup s n).
Proof. unfold strndup. apply cstr_no_nul. Qed.

Lemma minv_upd lists s n d : minv lists s -> no_nul n -> sec_wf lists n d -> minv lists (upd_section s n d).
Proof.
  intros ((Hw & Hl) & Hs & Hk) Hn Hd. unfold minv, cfg_wf. csimp. refine (conj (conj _ _) (conj _ _)).
  - apply trie_insert_wf; assumption.
  - intros n' d' Hn' E. rewrite trie_lookup_insert in E by assumption.
    destruct (beq_spec n n') as [<-|]; [injection E as <-; exact Hd|eauto].
  - intros n' d' E. injection E as <- <-. auto.
  - exact Hk.
Qed.
Lemma minv_map lists s v s' : minv lists s -> no_nul v -> map_insert s v = Ok s' -> minv lists s'.
Proof.
  intros H Hv E. unfold map_insert in E. destruct (c_section s) as [[n [m|l]]|] eqn:Es; try discriminate.
  destruct (c_key s) as [k|] eqn:Ek; [|inv E; exact H]. inv E.
  pose proof H as (_ & Hs & Hk). destruct (Hs _ _ Es) as [Hn (Hni & Hm & Hmv)].
  specialize (Hk _ Ek). apply strip_nn in Hk.
  apply minv_upd; [assumption..|]. simpl. refine (conj Hni (conj _ _)).
  - apply trie_insert_wf; assumption.
  - intros k' v' Hk' E. rewrite trie_lookup_insert in E by assumption.
    destruct (beq_spec (strip k) k') as [<-|]; [injection E as <-; exact Hv|eauto].
Qed.
Lemma minv_list lists s v s' : minv lists s -> no_nul v -> list_append s v = Ok s' -> minv lists s'.
Proof.
  intros H Hv E. unfold list_append in E. destruct (c_section s) as [[n [m|l]]|] eqn:Es; try discriminate.
  inv E. pose proof H as (_ & Hs & _). destruct (Hs _ _ Es) as [Hn (Hi & Hl)].
  apply minv_upd; [assumption..|]. simpl. split; [exact Hi|]. apply Forall_app. auto.
Qed.

Definition act_state (a : action) : option cst :=
  match a with Next s | Again s | Comment s => Some s | Fail _ => None end.

Lemma minv_state lists s q : minv lists s -> minv lists (set_state s q). Proof. exact (fun H => H). Qed.
Lemma minv_start lists s q : minv lists s -> minv lists (set_start s q). Proof. exact (fun H => H). Qed.
Lemma minv_value lists s q : minv lists s -> minv lists (set_value s q). Proof. exact (fun H => H). Qed.
Lemma minv_escaped lists s q : minv lists s -> minv lists (set_escaped s q). Proof. exact (fun H => H). Qed.
Lemma minv_nokey lists s : minv lists s -> minv lists (set_key s None).
Proof. intros (A & Bh & _). refine (conj A (conj Bh _)). intros k E. discriminate. Qed.
Lemma minv_key lists s k : minv lists s -> no_nul k -> minv lists (set_key s (Some k)).
Proof. intros (A & Bh & _) H. refine (conj A (conj Bh _)). intros k' E. injection E as <-. exact H. Qed.
Lemma minv_append lists s c : minv lists s -> minv lists (value_append s c).
Proof. intro H. unfold value_append. destruct (c_value s); exact H. Qed.

Local Hint Resolve minv_state minv_start minv_value minv_escaped minv_nokey minv_key minv_append
  strndup_nn cstr_no_nul rstrip_nn strip_nn no_nul_nil : minv.

Lemma minv_step lists src cur s c il a s' : minv lists s -> cfg_step lists src cur s c il = Ok a ->
  act_state a = Some s' -> minv lists s'.
Proof.
  intros H E Ea. unfold cfg_step in E.
  repeat match goal with
  | E : (if ?b then _ else _) = Ok _ |- _ => destruct b
  | E : match ?x with _ => _ end = Ok _ |- _ => destruct x eqn:?
  | E : rbind ?e _ = Ok _ |- _ => destruct e eqn:?; cbn [rbind] in E
  | E : Ok _ = Ok _ |- _ => inv E
  | E : UB = Ok _ |- _ => discriminate
  | E : OutOfFuel = Ok _ |- _ => discriminate
  end; try discriminate; simpl in Ea; try discriminate; inv Ea; eauto with minv.
  all: try (destruct (c_value s); solve [eauto with minv]).
  all: try (match goal with Hm : map_insert _ _ = Ok _ |- _ => eapply minv_map in Hm end;
            solve [eauto 8 with minv]).
  all: try (match goal with Hm : list_append _ _ = Ok _ |- _ => eapply minv_list in Hm end;
            solve [eauto 8 with minv]).
  { apply minv_state. apply minv_upd; [exact H|apply strndup_nn|].
    destruct (existsb _ lists) eqn:X.
    + split; [apply existsb_beq; exact X|constructor].
    + refine (conj _ (conj I _)); [|intros k v _ E; rewrite trie_lookup_new in E; discriminate].
      intro Hi. apply existsb_beq in Hi. congruence. }
  - match goal with Hm : map_insert _ _ = Ok _ |- _ => apply (@minv_map lists) in Hm end;
      [auto with minv|destruct (_ && _); auto with minv|auto with minv].
  - match goal with Hm : list_append _ _ = Ok _ |- _ => apply (@minv_list lists) in Hm end;
      [auto with minv|destruct (_ && _); auto with minv|auto with minv].
Qed.

Lemma minv_loop lists src : forall fuel cur s cfg, minv lists s ->
  cfg_loop fuel lists src cur s = Ok (inl cfg) -> cfg_wf lists cfg.
Proof.
  induction fuel as [|fuel IH]; intros cur s cfg H E; [discriminate|]. cbn [cfg_loop] in E.
  destruct (Nat.ltb cur (length src)); [|inv E; exact (proj1 H)].
  destruct (rd src cur) as [c| |]; cbn [rbind] in E; try discriminate.
  destruct (cfg_step _ _ _ _ _ _) as [a| |] eqn:Es; cbn [rbind] in E; try discriminate.
  pose proof (fun il => @minv_step lists src cur s c il a) as Hm.
  destruct a as [s'|s'|s'|e].
  - eapply IH; [|exact E]. eapply Hm; [exact H|exact Es|reflexivity].
  - eapply IH; [|exact E]. eapply Hm; [exact H|exact Es|reflexivity].
  - destruct (comment_end _ _ _) as [e| |]; cbn [rbind] in E; try discriminate.
    eapply IH; [|exact E]. eapply Hm; [exact H|exact Es|reflexivity].
  - discriminate.
Qed.

Lemma config_wf lists src cfg : config_parse lists src = Ok (inl cfg) -> cfg_wf lists cfg.
Proof.
  apply minv_loop. unfold minv, cfg_wf. simpl. refine (conj (conj I _) (conj _ _)).
  - intros n d _ E. rewrite trie_lookup_new in E. discriminate.
  - discriminate.
  - discriminate.
Qed.
