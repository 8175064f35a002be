From Verif Require Import Base Utils Trie TrieProofs Config.

(* ================= totality and safety (C15) ================= *)
(* what is known about the local variables while bytes are left *)
Definition cinv (s : cst) : Prop :=
  match c_state s with
  | CStart | CSectionStart | CSection => c_value s = None /\ c_escaped s = false
  | CKey | CValuePostQuoted =>
      c_value s = None /\ c_escaped s = false /\ exists n m, c_section s = Some (n, SMap m)
  | CListPostQuoted =>
      c_value s = None /\ c_escaped s = false /\ exists n l, c_section s = Some (n, SList l)
  | CValueStart | CValueQuote | CValue =>
      (exists v, c_value s = Some v) /\ exists n m, c_section s = Some (n, SMap m)
  | CListStart | CListQuote | CList =>
      (exists v, c_value s = Some v) /\ exists n l, c_section s = Some (n, SList l)
  end.

Definition weight (s : cst) : nat :=
  match c_state s with CStart | CValueStart => 1 | _ => 0 end.

Definition act_ok (s : cst) (is_last : bool) (a : action) : Prop :=
  match a with
  | Next s' => is_last = false -> cinv s'
  | Again s' => cinv s' /\ weight s' < weight s
  | Comment s' => cinv s' /\ s' = s
  | Fail _ => True
  end.

Ltac csimp := cbn [c_state c_start c_section c_key c_value c_escaped c_root set_state set_start
  set_key set_value set_escaped upd_section value_append fst snd] in *.

Lemma map_insert_ok s v n m : c_section s = Some (n, SMap m) ->
  exists s', map_insert s v = Ok s' /\ c_state s' = c_state s /\ c_value s' = c_value s
    /\ c_escaped s' = c_escaped s /\ exists m', c_section s' = Some (n, SMap m').
Proof.
  intro H. unfold map_insert. rewrite H. destruct (c_key s) as [k|].
  - eexists. split; [reflexivity|]. csimp. eauto.
  - eexists. split; [reflexivity|]. eauto.
Qed.

Lemma list_append_ok s v n l : c_section s = Some (n, SList l) ->
  exists s', list_append s v = Ok s' /\ c_state s' = c_state s /\ c_value s' = c_value s
    /\ c_escaped s' = c_escaped s /\ exists l', c_section s' = Some (n, SList l').
Proof.
  intro H. unfold list_append. rewrite H. eexists. split; [reflexivity|]. csimp. eauto.
Qed.

Lemma step_total lists src cur s c il : cinv s ->
  exists a, cfg_step lists src cur s c il = Ok a /\ act_ok s il a.
Proof.
  intro Hi. unfold cfg_step.
  destruct (c_escaped s) eqn:He.
  { eexists. split; [reflexivity|]. simpl. intros _.
    destruct s as [q st sec k v e r]. csimp. subst e.
    unfold cinv in *. csimp. destruct q; csimp;
      try (destruct Hi as [_ Hi]; discriminate); try (destruct Hi as (_ & Hi & _); discriminate);
      destruct Hi as [[x ->] Hs]; csimp; split; eauto. }
  destruct ((match c_value s with Some _ => true | None => false end) && (c == BSL)) eqn:Hb.
  { apply andb_true_iff in Hb. destruct Hb as [Hv _].
    eexists. split; [reflexivity|]. simpl. intros _.
    destruct s as [q st sec k v e r]. csimp. destruct v as [v|]; [|discriminate].
    unfold cinv in *. csimp. destruct q; csimp; destruct Hi as [Hi1 Hi2]; try discriminate;
      split; eauto. }
  destruct s as [q st sec k v e r]. csimp. subst e. unfold cinv in Hi. csimp.
  destruct q; csimp.
  - (* CStart *)
    destruct Hi as [-> _]. csimp.
    destruct ((c == "#"%char) || (c == ";"%char)).
    { eexists. split; [reflexivity|]. simpl. unfold cinv. csimp. auto. }
    destruct ((c == SP) || (c == TAB) || (c == CR) || (c == LF)).
    { eexists. split; [reflexivity|]. simpl. unfold cinv. csimp. auto. }
    destruct (c == "["%char).
    { eexists. split; [reflexivity|]. simpl. unfold cinv. csimp. auto. }
    destruct sec as [[n [m|l]]|].
    + eexists. split; [reflexivity|]. simpl. unfold cinv, weight. csimp. split; [eauto 6|lia].
    + eexists. split; [reflexivity|]. simpl. unfold cinv, weight. csimp. split; [eauto 6|lia].
    + eexists. split; [reflexivity|]. exact I.
  - eexists. split; [reflexivity|]. simpl. unfold cinv. csimp. auto.
  - destruct Hi as [-> _]. destruct (c == "]"%char).
    { eexists. split; [reflexivity|]. simpl. unfold cinv. csimp. auto. }
    destruct (negb (nl c)).
    { eexists. split; [reflexivity|]. simpl. unfold cinv. csimp. auto. }
    eexists. split; [reflexivity|]. exact I.
  - destruct Hi as (-> & _ & n & m & ->). destruct (c == "="%char).
    { destruct il.
      - destruct (@map_insert_ok (Cst CValueStart st (Some (n, SMap m))
            (Some (strndup (skipn st src) (cur - st))) None false r) [] n m eq_refl)
          as (s' & E & _). unfold map_insert in *. csimp. injection E as <-. cbn [rbind].
        eexists. split; [reflexivity|]. simpl. intro; discriminate.
      - eexists. split; [reflexivity|]. simpl. unfold cinv. csimp. intros _. eauto 6. }
    destruct (negb (nl c) && negb il).
    { eexists. split; [reflexivity|]. simpl. unfold cinv. csimp. eauto 7. }
    eexists. split; [reflexivity|]. exact I.
  - destruct Hi as [[x ->] (n & m & ->)].
    destruct (hblank c). { eexists. split; [reflexivity|]. simpl. unfold cinv. csimp. eauto 7. }
    destruct (c == DQ). { eexists. split; [reflexivity|]. simpl. unfold cinv. csimp. eauto 7. }
    destruct (nl c || il).
    { eexists. split; [reflexivity|]. simpl. unfold cinv, weight. csimp. split; [eauto 7|lia]. }
    eexists. split; [reflexivity|]. simpl. unfold cinv. csimp. eauto 7.
  - destruct Hi as [[x ->] (n & m & ->)].
    destruct (c == DQ).
    { edestruct (@map_insert_ok (Cst CValueQuote st (Some (n, SMap m)) k (Some x) false r)
                   (cstr x) n m eq_refl) as (s' & E & H1 & H2 & H3 & m' & H4).
      rewrite E. cbn [rbind]. eexists. split; [reflexivity|]. simpl.
      unfold cinv. csimp. rewrite H3, H4. eauto 6. }
    eexists. split; [reflexivity|]. simpl. unfold cinv. csimp. eauto 7.
  - destruct Hi as (-> & _ & n & m & ->).
    destruct (hblank c). { eexists. split; [reflexivity|]. simpl. unfold cinv. csimp. eauto 7. }
    destruct (nl c || il). { eexists. split; [reflexivity|]. simpl. unfold cinv. csimp. auto. }
    eexists. split; [reflexivity|]. exact I.
  - destruct Hi as [[x ->] (n & m & ->)].
    destruct (nl c || il).
    { set (s1 := if il && negb (nl c) then _ else _).
      assert (Hs1 : exists y, s1 = Cst CValue st (Some (n, SMap m)) k (Some y) false r).
      { unfold s1. destruct (il && negb (nl c)); csimp; eexists; reflexivity. }
      destruct Hs1 as (y & ->). csimp.
      edestruct (@map_insert_ok (Cst CValue st (Some (n, SMap m)) k (Some y) false r)
                   (rstrip (cstr y)) n m eq_refl) as (s' & E & H1 & H2 & H3 & m' & H4).
      rewrite E. cbn [rbind]. eexists. split; [reflexivity|]. simpl.
      unfold cinv. csimp. rewrite H3. auto. }
    eexists. split; [reflexivity|]. simpl. unfold cinv. csimp. eauto 7.
  - destruct Hi as [[x ->] (n & m & ->)].
    destruct (hblank c). { eexists. split; [reflexivity|]. simpl. unfold cinv. csimp. eauto 7. }
    destruct (c == DQ); eexists; (split; [reflexivity|]); simpl; unfold cinv; csimp; eauto 7.
  - destruct Hi as [[x ->] (n & m & ->)].
    destruct (c == DQ).
    { edestruct (@list_append_ok (Cst CListQuote st (Some (n, SList m)) k (Some x) false r)
                   (cstr x) n m eq_refl) as (s' & E & H1 & H2 & H3 & m' & H4).
      rewrite E. cbn [rbind]. eexists. split; [reflexivity|]. simpl.
      unfold cinv. csimp. rewrite H3, H4. eauto 6. }
    eexists. split; [reflexivity|]. simpl. unfold cinv. csimp. eauto 7.
  - destruct Hi as (-> & _ & n & m & ->).
    destruct (hblank c). { eexists. split; [reflexivity|]. simpl. unfold cinv. csimp. eauto 7. }
    destruct (nl c || il). { eexists. split; [reflexivity|]. simpl. unfold cinv. csimp. auto. }
    eexists. split; [reflexivity|]. exact I.
  - destruct Hi as [[x ->] (n & m & ->)].
    destruct (nl c || il).
    { set (s1 := if il && negb (nl c) then _ else _).
      assert (Hs1 : exists y, s1 = Cst CList st (Some (n, SList m)) k (Some y) false r).
      { unfold s1. destruct (il && negb (nl c)); csimp; eexists; reflexivity. }
      destruct Hs1 as (y & ->). csimp.
      edestruct (@list_append_ok (Cst CList st (Some (n, SList m)) k (Some y) false r)
                   (strip (cstr y)) n m eq_refl) as (s' & E & H1 & H2 & H3 & m' & H4).
      rewrite E. cbn [rbind]. eexists. split; [reflexivity|]. simpl.
      unfold cinv. csimp. rewrite H3. auto. }
    eexists. split; [reflexivity|]. simpl. unfold cinv. csimp. eauto 7.
Qed.

Lemma step_fail_at lists src cur s c il e : cfg_step lists src cur s c il = Ok (Fail e) -> ce_at e = cur.
Proof.
  unfold cfg_step, map_insert, list_append. intro H.
  repeat match type of H with
  | context [match ?x with _ => _ end] => destruct x; cbn [rbind] in H
  end; inversion H; reflexivity.
Qed.

Lemma comment_end_total src : forall n cur fuel,
  length src - cur <= n -> n < fuel ->
  exists e, comment_end fuel src cur = Ok e /\ cur <= e
    /\ (e = length src \/ e < length src \/ e = cur).
Proof.
  induction n as [|n IH]; intros cur fuel Hn Hf; (destruct fuel as [|fuel]; [lia|]); cbn [comment_end].
  - destruct (Nat.ltb_spec cur (length src)) as [H|H]; [lia|]. exists cur. auto.
  - destruct (Nat.ltb_spec cur (length src)) as [H|H]; [|exists cur; auto].
    destruct (rd_lt H) as [c ->]. cbn [rbind]. destruct (nl c).
    + exists cur. auto.
    + destruct (IH (cur + 1) fuel ltac:(lia) ltac:(lia)) as (e & E & H1 & H2).
      exists e. rewrite E. split; [reflexivity|]. split; [lia|].
      destruct H2 as [H2|[H2|H2]]; auto. lia.
Qed.

Lemma loop_total lists src : forall n fuel cur s,
  2 * (length src - cur) + weight s <= n -> n < fuel ->
  (cur < length src -> cinv s) ->
  exists r, cfg_loop fuel lists src cur s = Ok r
    /\ (forall e, r = inr e -> cur <= ce_at e < length src).
Proof.
  induction n as [n IH] using lt_wf_ind. intros fuel cur s Hn Hf Hi.
  destruct fuel as [|fuel]; [lia|]. cbn [cfg_loop].
  destruct (Nat.ltb_spec cur (length src)) as [Hlt|Hge].
  2:{ eexists. split; [reflexivity|]. intros e He. discriminate. }
  destruct (rd_lt Hlt) as [c Hc]. rewrite Hc. cbn [rbind]. specialize (Hi Hlt).
  set (il := Nat.eqb cur (length src - 1)).
  destruct (@step_total lists src cur s c il Hi) as (a & Ea & Ha). rewrite Ea. cbn [rbind].
  destruct a as [s'|s'|s'|e]; simpl in Ha.
  - destruct (IH (2 * (length src - (cur + 1)) + weight s')) with (fuel := fuel) (cur := cur + 1) (s := s')
      as (r & Er & Hr).
    + assert (weight s' <= 1) by (unfold weight; destruct (c_state s'); lia). lia.
    + lia.
    + assert (weight s' <= 1) by (unfold weight; destruct (c_state s'); lia). lia.
    + intro H. apply Ha. unfold il. apply Nat.eqb_neq. lia.
    + exists r. split; [exact Er|]. intros e He. specialize (Hr e He). lia.
  - destruct Ha as [Hinv Hw].
    destruct (IH (2 * (length src - cur) + weight s')) with (fuel := fuel) (cur := cur) (s := s')
      as (r & Er & Hr); try lia; auto.
    exists r. auto.
  - destruct Ha as [Hinv ->].
    destruct (@comment_end_total src (length src) cur (S (length src)) ltac:(lia) ltac:(lia))
      as (e & Ee & He1 & He2).
    rewrite Ee. cbn [rbind].
    destruct (IH (2 * (length src - (e + 1)) + weight s)) with (fuel := fuel) (cur := e + 1) (s := s)
      as (r & Er & Hr); try lia; auto.
    exists r. split; [exact Er|]. intros e0 He0. specialize (Hr e0 He0). lia.
  - eexists. split; [reflexivity|]. intros e0 He0. injection He0 as <-.
    apply step_fail_at in Ea. lia.
Qed.

Lemma config_total lists src : exists r, config_parse lists src = Ok r
  /\ (forall e, r = inr e -> ce_at e < length src).
Proof.
  unfold config_parse.
  destruct (@loop_total lists src (2 * length src + 1) (2 * length src + 2) 0 init_cst)
    as (r & Er & Hr).
  - unfold weight. simpl. lia.
  - lia.
  - intros _. split; reflexivity.
  - exists r. split; [exact Er|]. intros e He. apply Hr in He. lia.
Qed.

(* ================= big-step reading of the loop ================= *)
(* the loop, started after [p] with [q] to come, ends with [r] *)
Definition Runs (lists : list bytes) (p q : bytes) (s : cst) (r : config + cerror) : Prop :=
  exists fuel, cfg_loop fuel lists (p ++ q) (length p) s = Ok r.

Lemma loop_mono lists src : forall f cur s r, cfg_loop f lists src cur s = Ok r ->
  forall k, cfg_loop (f + k) lists src cur s = Ok r.
Proof.
  induction f as [|f IH]; intros cur s r H k; [discriminate|].
  cbn [cfg_loop Nat.add] in *. destruct (Nat.ltb cur (length src)); [|exact H].
  destruct (rd src cur) as [c| |]; cbn [rbind] in *; try discriminate.
  destruct (cfg_step _ _ _ _ _ _) as [a| |]; cbn [rbind] in *; try discriminate.
  destruct a as [s'|s'|s'|e]; auto.
  destruct (comment_end _ _ _) as [e| |]; cbn [rbind] in *; try discriminate. auto.
Qed.

Lemma runs_parse lists src r : Runs lists [] src init_cst r -> config_parse lists src = Ok r.
Proof.
  intros [f Hf]. simpl in Hf. destruct (config_total lists src) as (r' & E & _). unfold config_parse in *.
  pose proof (loop_mono Hf (2 * length src + 2)) as H1.
  pose proof (loop_mono E f) as H2.
  rewrite Nat.add_comm in H2. congruence.
Qed.

Lemma runs_end lists p s : Runs lists p [] s (inl (c_root s)).
Proof.
  exists 1. cbn [cfg_loop]. rewrite app_nil_r.
  destruct (Nat.ltb_spec (length p) (length p)); [lia|reflexivity].
Qed.

Definition is_nil (q : bytes) : bool := match q with [] => true | _ => false end.

Lemma is_last_eq (p : bytes) c q : Nat.eqb (length p) (length (p ++ c :: q) - 1) = is_nil q.
Proof.
  rewrite app_length. simpl. destruct q; simpl; [apply Nat.eqb_eq; lia|apply Nat.eqb_neq; lia].
Qed.

Lemma runs_next lists p c q s s' r :
  cfg_step lists (p ++ c :: q) (length p) s c (is_nil q) = Ok (Next s') ->
  Runs lists (p ++ [c]) q s' r -> Runs lists p (c :: q) s r.
Proof.
  intros Hs [f Hf]. exists (S f). cbn [cfg_loop].
  destruct (Nat.ltb_spec (length p) (length (p ++ c :: q))) as [_|H];
    [|rewrite app_length in H; simpl in H; lia].
  rewrite rd_mid. cbn [rbind]. rewrite is_last_eq, Hs. cbn [rbind].
  rewrite <- app_assoc, app_length in Hf. exact Hf.
Qed.

Lemma runs_again lists p c q s s' r :
  cfg_step lists (p ++ c :: q) (length p) s c (is_nil q) = Ok (Again s') ->
  Runs lists p (c :: q) s' r -> Runs lists p (c :: q) s r.
Proof.
  intros Hs [f Hf]. exists (S f). cbn [cfg_loop].
  destruct (Nat.ltb_spec (length p) (length (p ++ c :: q))) as [_|H];
    [|rewrite app_length in H; simpl in H; lia].
  rewrite rd_mid. cbn [rbind]. rewrite is_last_eq, Hs. cbn [rbind]. exact Hf.
Qed.

Lemma comment_end_text t : Forall (fun c => nl c = false) t -> forall p q fuel,
  length t < fuel -> (q = [] \/ exists c q', q = c :: q' /\ nl c = true) ->
  comment_end fuel (p ++ t ++ q) (length p) = Ok (length p + length t).
Proof.
  induction 1 as [|c t Hc Ht IH]; intros p q fuel Hf Hq; (destruct fuel as [|fuel]; [simpl in Hf; lia|]);
    cbn [comment_end].
  - simpl. rewrite Nat.add_0_r.
    destruct (Nat.ltb_spec (length p) (length (p ++ q))) as [H|H]; [|reflexivity].
    destruct Hq as [->|(c & q' & -> & Hc)]; [rewrite app_nil_r in H; lia|].
    rewrite rd_mid. cbn [rbind]. rewrite Hc. reflexivity.
  - cbn [app].
    destruct (Nat.ltb_spec (length p) (length (p ++ c :: t ++ q))) as [_|H];
      [|rewrite app_length in H; simpl in H; lia].
    rewrite rd_mid. cbn [rbind]. rewrite Hc.
    replace (p ++ c :: t ++ q) with ((p ++ [c]) ++ t ++ q) by (rewrite <- app_assoc; reflexivity).
    replace (length p + 1) with (length (p ++ [c])) by (rewrite app_length; reflexivity).
    rewrite IH; [|simpl in Hf; lia|exact Hq]. rewrite app_length. simpl. f_equal. lia.
Qed.

Lemma runs_comment lists p c t e q s r :
  cfg_step lists (p ++ c :: t ++ e :: q) (length p) s c (is_nil (t ++ e :: q)) = Ok (Comment s) ->
  nl c = false -> Forall (fun c => nl c = false) t -> nl e = true ->
  Runs lists (p ++ c :: t ++ [e]) q s r -> Runs lists p (c :: t ++ e :: q) s r.
Proof.
  intros Hs Hc Ht He [f Hf]. exists (S f). cbn [cfg_loop].
  destruct (Nat.ltb_spec (length p) (length (p ++ c :: t ++ e :: q))) as [_|H];
    [|rewrite app_length in H; simpl in H; lia].
  rewrite rd_mid. cbn [rbind]. rewrite is_last_eq, Hs. cbn [rbind].
  pose proof (@comment_end_text (c :: t) ltac:(constructor; assumption) p (e :: q)
     (S (length (p ++ c :: t ++ e :: q)))) as Hce. cbn [app] in Hce. rewrite Hce.
  - cbn [rbind]. rewrite !app_length in Hf. cbn [length] in Hf.
    replace (p ++ c :: t ++ e :: q) with ((p ++ c :: t ++ [e]) ++ q)
      by (rewrite <- app_assoc; cbn; rewrite <- app_assoc; reflexivity).
    rewrite app_length in Hf. simpl length in Hf.
    replace (length p + length (c :: t) + 1) with (length p + S (length t + 1)) by (simpl; lia).
    exact Hf.
  - rewrite !app_length. simpl. rewrite app_length. lia.
  - right. eauto.
Qed.

Lemma runs_comment_end lists p c t s :
  cfg_step lists (p ++ c :: t) (length p) s c (is_nil t) = Ok (Comment s) ->
  nl c = false -> Forall (fun c => nl c = false) t ->
  Runs lists p (c :: t) s (inl (c_root s)).
Proof.
  intros Hs Hc Ht. exists 2. cbn [cfg_loop].
  destruct (Nat.ltb_spec (length p) (length (p ++ c :: t))) as [_|H];
    [|rewrite app_length in H; simpl in H; lia].
  rewrite rd_mid. cbn [rbind]. rewrite is_last_eq, Hs. cbn [rbind].
  pose proof (@comment_end_text (c :: t) ltac:(constructor; assumption) p []
     (S (length (p ++ c :: t)))) as Hce. rewrite app_nil_r in Hce. rewrite Hce.
  - cbn [rbind]. rewrite app_length. simpl length.
    destruct (Nat.ltb_spec (length p + S (length t) + 1) (length p + S (length t))); [lia|reflexivity].
  - rewrite app_length. simpl. lia.
  - left. reflexivity.
Qed.
