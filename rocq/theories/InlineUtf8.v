(* The inline parser writes UTF-8 when it reads UTF-8. *)
From Verif Require Import Base Utils Utf8 Utf8Proofs Utf8Text Content InlineSpec InlineProofs.
#[local] Open Scope nat_scope.
#[local] Arguments B : simpl never.

Lemma asc_eq c d : c = d -> asc d = true -> asc c = true. Proof. intros ->. auto. Qed.
Lemma entity_asc c e : entity c = Some e -> asc c = true /\ forallb asc e = true.
Proof.
  unfold entity. repeat match goal with |- context [c == ?d] => destruct (c == d) eqn:?E end; intro H; try discriminate;
    apply eqb_true in E || (apply eqb_true in E0) || idtac; inversion H; subst;
    repeat match goal with K : (_ == _) = true |- _ => apply eqb_true in K; subst end; split; reflexivity.
Qed.
Lemma esc1_run st c : In st states -> (asc c = true -> st = 0) -> run_spec st (esc1 c) = step_spec st c.
Proof.
  intros Hs H. unfold esc1. destruct (entity c) as [e|] eqn:E; [|reflexivity].
  destruct (entity_asc E) as [A F]. rewrite (H A). rewrite (step_asc A). exact (ok_asc F).
Qed.
Lemma ent_run s : forall st, In st states -> run_spec st s <> 12 -> run_spec st (htmlentities s) = run_spec st s.
Proof.
  induction s as [|c s IH]; intros st Hs H; [reflexivity|]. cbn [htmlentities flat_map]. rewrite run_spec_app. cbn [run_spec] in *.
  rewrite esc1_run; [|exact Hs|].
  - apply IH; [apply (@step_eq st c Hs)|exact H].
  - intro A. destruct (Nat.eq_dec st 0) as [E|N]; [exact E|]. rewrite (step_asc_bad A Hs N), run_12 in H. contradiction.
Qed.
Lemma ok_ent s : ok s -> ok (htmlentities s).
Proof. intro H. unfold ok in *. rewrite ent_run; [exact H|exact in0|rewrite H; discriminate]. Qed.
Lemma unescape_run s : forall e st, In st states -> run_spec st s <> 12 -> run_spec st (unescape_go e s) = run_spec st s.
Proof.
  induction s as [|c s IH]; intros e st Hs H; [reflexivity|]. cbn [unescape_go]. cbn [run_spec] in H |- *.
  destruct (c == BSL) eqn:E; cbn [andb].
  - apply eqb_true in E. subst c. assert (Z : st = 0).
    { destruct (Nat.eq_dec st 0) as [Z|N]; [exact Z|]. rewrite (@step_asc_bad BSL eq_refl st Hs N), run_12 in H. contradiction. }
    subst st. rewrite (@step_asc BSL eq_refl) in *. destruct (negb e).
    + apply IH; assumption.
    + cbn [run_spec]. rewrite (@step_asc BSL eq_refl). apply IH; assumption.
  - cbn [run_spec]. apply IH; [apply (@step_eq st c Hs)|exact H].
Qed.
Lemma ok_unescape s : ok s -> ok (unescape s).
Proof. intro H. unfold ok, unescape in *. rewrite unescape_run; [exact H|exact in0|rewrite H; discriminate]. Qed.
Lemma ok_dup s lo hi : ok s -> bd s lo -> bd s hi -> ok (dup s lo hi).
Proof.
  intros H L K. unfold dup. destruct (Nat.leb_spec lo hi) as [E|E]; [|exact (bd_skip H L)].
  apply bd_first. apply (bd_shift _ L). replace (lo + (hi - lo)) with hi by lia. exact K.
Qed.

(* the invariant *)
Definition iu (s : bytes) (len cur : nat) (v : ivars) : Prop :=
  match i_state v with
  | IStart => run_spec 0 (i_rv v) = run_spec 0 (firstn cur s) /\ (cur <= len \/ bd s cur)
  | ILinkContent | IImgAlt => ok (i_rv v) /\ bd s (i_slink v)
  | ILinkUrlStart | IImgUrlStart => ok (i_rv v) /\ bd s (i_slink v) /\ (forall l, i_link1 v = Some l -> ok l)
  | ILinkUrl | IImgUrl => ok (i_rv v) /\ bd s (i_slink v) /\ (forall l, i_link1 v = Some l -> ok l) /\ bd s (i_start v)
  | IImgStart => ok (i_rv v) /\ bd s cur /\ cur < len
  | _ => ok (i_rv v) /\ bd s cur
  end.
Definition rec_ok (rec : bytes -> nat -> res bytes) : Prop :=
  forall s len t, ok s -> len <= length s -> bd s len -> rec s len = Ok t -> ok t.

Ltac oks := repeat (first [ assumption | apply ok_app | (apply ok_asc; reflexivity) ]).

Lemma istart_ok s len cur v x st : ok (i_rv v) -> ok x -> bd s cur -> st = IStart -> iu s len cur (emit x st v).
Proof.
  intros H X K ->. unfold iu, emit. cbn [i_state i_rv]. split; [|right; exact K]. rewrite K. exact (ok_app H X).
Qed.
Lemma emph1_utf8 rec s len cur d dbl c v r : rec_ok rec -> ok s -> len <= length s -> cur < len -> nth_error s cur = Some c ->
  mark d -> asc d = true -> ok (i_rv v) -> bd s cur -> (dbl = IAst2 \/ dbl = IUnd2) ->
  emph1 rec s len cur d dbl c v = Ok r -> iu s len (fst r) (snd r).
Proof.
  intros R Hs Hl Hc Ec Md Ad Hrv Hb Hd. unfold emph1. destruct (c == d) eqn:E.
  - intro H. inversion H; subst r. cbn [fst snd]. apply eqb_true in E. subst d.
    assert (K : ok (i_rv v) /\ bd s (cur + 1)) by (split; [exact Hrv|apply (bd_asc Hs Ec Ad)]).
    destruct Hd; subst dbl; exact K.
  - pose proof (@find_res s cur d Md) as FR. destruct (str_find (skipn cur s) d) as [[i|]| |]; cbn [rbind]; try discriminate.
    + destruct FR as [F1 F2]. assert (Fb := bd_asc Hs F2 Ad). destruct (Nat.leb_spec len (cur + i)) as [L|L].
      * intro H. inversion H; subst r. apply istart_ok; auto. apply ok_asc. cbn. rewrite Ad. reflexivity.
      * destruct (rec (skipn cur s) i) as [t| |] eqn:Er; cbn [rbind]; try discriminate. intro H. inversion H; subst r. cbn [fst snd].
        apply istart_ok; auto; [|apply Fb]. oks. apply (R _ _ _ (bd_skip Hs Hb)) in Er; [exact Er|rewrite skipn_length; lia|].
        apply (bd_shift _ Hb). apply Fb.
    + intro H. inversion H; subst r. apply istart_ok; auto. apply ok_asc. cbn. rewrite Ad. reflexivity.
Qed.
Lemma pair_utf8 s len cur d : ok s -> len <= length s -> cur < len -> mark d -> asc d = true ->
  forall q, find_pair (S len) s len cur d = Ok (Some q) -> cur <= q < len /\ bd s q /\ bd s (q + 2).
Proof.
  intros Hs Hl Hc Md Ad q H. pose proof (@find_pair_res s len d Md Hl (S len) cur ltac:(lia) ltac:(lia) ltac:(lia)) as FP. rewrite H in FP.
  destruct FP as (F1 & F2 & F3). split; [exact F1|]. split; [apply (bd_asc Hs F2 Ad)|].
  replace (q + 2) with (q + 1 + 1) by lia. apply (bd_asc Hs F3 Ad).
Qed.
Lemma emph2_utf8 rec s len cur d v r : rec_ok rec -> ok s -> len <= length s -> cur < len ->
  mark d -> asc d = true -> ok (i_rv v) -> bd s cur ->
  emph2 rec s len cur d v = Ok r -> iu s len (fst r) (snd r).
Proof.
  intros R Hs Hl Hc Md Ad Hrv Hb. unfold emph2. destruct (find_pair (S len) s len cur d) as [[q|]| |] eqn:E; cbn [rbind]; try discriminate.
  - destruct (@pair_utf8 s len cur d Hs Hl Hc Md Ad q E) as (Q1 & Q2 & Q3).
    destruct (rec (skipn cur s) (q - cur)) as [t| |] eqn:Er; cbn [rbind]; try discriminate. intro H. inversion H; subst r. cbn [fst snd].
    apply istart_ok; auto. oks. apply (R _ _ _ (bd_skip Hs Hb)) in Er; [exact Er|rewrite skipn_length; lia|].
    apply (bd_shift _ Hb). replace (cur + (q - cur)) with q by lia. exact Q2.
  - intro H. inversion H; subst r. apply istart_ok; auto. apply ok_asc. cbn. rewrite Ad. reflexivity.
Qed.

Lemma istart_step s len cur c v : ok s -> nth_error s cur = Some c -> run_spec 0 (i_rv v) = run_spec 0 (firstn cur s) -> cur < len ->
  iu s len (cur + 1) (emit (esc1 c) IStart v).
Proof.
  intros Hs Ec Hr Hl. unfold iu, emit. cbn [i_state i_rv]. split; [|left; lia]. rewrite run_spec_app, (firstn_snoc Ec), run_spec_app, Hr.
  rewrite esc1_run; [reflexivity|apply run_states, in0|]. intro A. apply (bd_asc Hs Ec A).
Qed.
Lemma repeat_asc c n : asc c = true -> forallb asc (repeat c n) = true.
Proof. intro H. induction n; [reflexivity|]. cbn. rewrite H. exact IHn. Qed.

Ltac fin H := inversion H; subst; cbn [fst snd].
Ltac char E := apply eqb_true in E; subst.

Lemma istep_utf8 rec s len cur c v r : rec_ok rec -> ok s -> len <= length s -> cur < len -> nth_error s cur = Some c ->
  iu s len cur v -> istep rec s len cur c v = Ok r -> iu s len (fst r) (snd r).
Proof.
  intros R Hs Hl Hc Ec I. unfold istep. set (last := Nat.eqb cur (len - 1)).
  assert (A : forall d, c = d -> asc d = true -> bd s cur /\ bd s (cur + 1)) by (intros d -> Ad; exact (bd_asc Hs Ec Ad)).
  unfold iu in I. destruct (i_state v) eqn:St.
  - (* IStart *) destruct I as [Ir _].
    destruct last eqn:El; [intro H; fin H; apply istart_step; assumption|].
    unfold last in El. apply Nat.eqb_neq in El.
    assert (G : forall d st, c = d -> asc d = true -> match st with IAst | IUnd | ITick | ILinkStart | IImgStart | IEndash | IBreakStart => True | _ => False end ->
      iu s len (cur + 1) (goto st v)).
    { intros d st Ed Ad Hst. destruct (A d Ed Ad) as [B1 B2]. assert (K : ok (i_rv v) /\ bd s (cur + 1)) by (split; [unfold ok; rewrite Ir; exact B1|exact B2]).
      destruct st; try destruct Hst; try exact K. split; [apply K|split; [apply K|lia]]. }
    destruct (c == BSL) eqn:E0.
    { char E0. destruct (A BSL eq_refl eq_refl) as [B1 B2]. destruct (@crd_spec s (cur + 1) ltac:(lia)) as (x & -> & X1 & _). cbn [rbind]. intro H. fin H.
      specialize (X1 ltac:(lia)). unfold iu, emit. cbn [i_state i_rv]. split; [|left; lia]. rewrite run_spec_app, Ir, B1.
      replace (cur + 2) with (cur + 1 + 1) by lia. rewrite (firstn_snoc X1), run_spec_app, B2, esc1_run; [reflexivity|exact in0|reflexivity]. }
    repeat match goal with |- context [if (c == ?d) then _ else _] =>
      let E := fresh "E" in destruct (c == d) eqn:E; [intro H; fin H; apply eqb_true in E; apply (G d); [exact E|reflexivity|exact I]|] end.
    intro H; fin H. apply istart_step; assumption.
  - apply emph1_utf8; auto using mark_ast; apply I.
  - apply emph2_utf8; auto using mark_ast; apply I.
  - apply emph1_utf8; auto using mark_und; apply I.
  - apply emph2_utf8; auto using mark_und; apply I.
  - (* ITick *) destruct I as [Ir Ib]. destruct (c == "`"%char) eqn:E.
    + apply eqb_true in E. intro H; fin H. split; [exact Ir|apply (A "`"%char eq_refl eq_refl)].
    + pose proof (@find_res s cur "`" mark_tick) as FR. destruct (str_find (skipn cur s) "`") as [[i|]| |]; cbn [rbind]; try discriminate.
      * destruct FR as [F1 F2]. assert (Fb := @bd_asc _ _ _ Hs F2 eq_refl). destruct (Nat.leb_spec len (cur + i)) as [L|L]; intro H; fin H; apply istart_ok; auto.
        -- oks.
        -- oks. apply ok_ent, ok_dup; auto. apply Fb.
        -- apply Fb.
      * intro H; fin H. apply istart_ok; auto. oks.
  - (* ITick2 *) destruct I as [Ir Ib]. destruct (find_pair (S len) s len cur "`") as [[q|]| |] eqn:E; cbn [rbind]; try discriminate.
    + destruct (@pair_utf8 s len cur "`" Hs Hl Hc mark_tick eq_refl q E) as (Q1 & Q2 & Q3). intro H; fin H. apply istart_ok; auto. oks. apply ok_ent, ok_dup; auto.
    + intro H; fin H. apply istart_ok; auto. oks.
  - (* ILinkStart *) destruct I as [Ir Ib]. destruct (c == "["%char) eqn:E.
    + apply eqb_true in E. intro H; fin H. split; [exact Ir|apply (A "["%char eq_refl eq_refl)].
    + intro H; fin H. split; [exact Ir|exact Ib].
  - (* ILinkAuto *) destruct I as [Ir Ib]. destruct (find_pair (S len) s len cur "]") as [[q|]| |] eqn:E; cbn [rbind]; try discriminate.
    + destruct (@pair_utf8 s len cur "]" Hs Hl Hc mark_brk eq_refl q E) as (Q1 & Q2 & Q3). intro H; fin H. apply istart_ok; auto.
      pose proof (ok_unescape (ok_dup Hs Ib Q2)). oks.
    + intro H; fin H. apply istart_ok; auto. oks.
  - (* ILinkContent *) destruct I as [Ir Ib]. destruct (c == BSL); [intro H; fin H; unfold iu; rewrite St; auto|].
    destruct (c == "["%char); [intro H; fin H; split; assumption|].
    destruct (c == "]"%char) eqn:E; [|intro H; fin H; unfold iu; rewrite St; auto]. apply eqb_true in E.
    destruct (Nat.eqb (i_count v) 1); intro H; fin H; [|split; assumption].
    split; [exact Ir|]. split; [exact Ib|]. cbn [i_link1]. intros l Hx. inversion Hx. apply ok_dup; auto. apply (A "]"%char eq_refl eq_refl).
  - (* ILinkUrlStart *) destruct I as (Ir & Ib & Il). destruct (is_sp c || is_nl c); [intro H; fin H; unfold iu; rewrite St; auto|].
    destruct (c == "("%char) eqn:E; intro H; fin H.
    + apply eqb_true in E. repeat apply conj; auto. cbn [i_start]. apply (A "("%char); auto.
    + split; [|right; exact Ib]. cbn [i_rv]. rewrite Ib. apply ok_app; oks.
  - (* ILinkUrl *) destruct I as (Ir & Ib & Il & Is). destruct (c == BSL); [intro H; fin H; unfold iu; rewrite St; auto|].
    destruct (c == ")"%char) eqn:E; [|intro H; fin H; unfold iu; rewrite St; auto]. apply eqb_true in E.
    destruct (A ")"%char E eq_refl) as [B1 B2].
    destruct (i_link1 v) as [l|]; [|discriminate]. destruct (rec l (length l)) as [t| |] eqn:Er; cbn [rbind]; try discriminate. intro H; fin H.
    split; [|right; exact B2]. cbn [i_rv]. rewrite B2. pose proof (Il l eq_refl) as Ol.
    assert (Ot : ok t) by (apply (R l (length l) t Ol); [lia|apply bd_end; auto|exact Er]). pose proof (ok_unescape (ok_dup Hs Is B1)).
    apply ok_app; oks.
  - (* IImgStart *) destruct I as (Ir & Ib & _). destruct (c == "["%char) eqn:E; intro H; fin H.
    + apply eqb_true in E. split; [exact Ir|apply (A "["%char E eq_refl)].
    + apply istart_ok; auto. oks.
  - (* IImgAlt *) destruct I as [Ir Ib]. destruct (c == BSL); [intro H; fin H; unfold iu; rewrite St; auto|].
    destruct (c == "]"%char) eqn:E; [|intro H; fin H; unfold iu; rewrite St; auto]. apply eqb_true in E.
    intro H; fin H. split; [exact Ir|]. split; [exact Ib|]. cbn [i_link1]. intros l Hx. inversion Hx. apply ok_dup; auto. apply (A "]"%char eq_refl eq_refl).
  - (* IImgUrlStart *) destruct I as (Ir & Ib & Il). destruct (is_sp c || is_nl c); [intro H; fin H; unfold iu; rewrite St; auto|].
    destruct (c == "("%char) eqn:E; intro H; fin H.
    + apply eqb_true in E. repeat apply conj; auto. cbn [i_start]. apply (A "("%char); auto.
    + split; [|right; exact Ib]. cbn [i_rv]. rewrite Ib. apply ok_app; oks.
  - (* IImgUrl *) destruct I as (Ir & Ib & Il & Is). destruct (c == BSL); [intro H; fin H; unfold iu; rewrite St; auto|].
    destruct (c == ")"%char) eqn:E; [|intro H; fin H; unfold iu; rewrite St; auto]. apply eqb_true in E.
    destruct (A ")"%char E eq_refl) as [B1 B2]. intro H; fin H.
    split; [|right; exact B2]. cbn [i_rv]. rewrite B2. pose proof (ok_unescape (ok_dup Hs Is B1)).
    assert (Oa : ok (match i_link1 v with None => [] | Some l => unescape l end)).
    { destruct (i_link1 v) as [l|]; [apply ok_unescape; exact (Il l eq_refl)|reflexivity]. }
    apply ok_app; oks.
  - (* IEndash *) destruct I as [Ir Ib]. destruct (c == "-"%char) eqn:E.
    + apply eqb_true in E. destruct (A "-"%char E eq_refl) as [B1 B2]. destruct last; intro H; fin H; [apply istart_ok; auto; oks|split; assumption].
    + intro H; fin H. apply istart_ok; auto. oks.
  - destruct I as [Ir Ib]. destruct (c == "-"%char) eqn:E; intro H; fin H; apply istart_ok; auto; try oks.
    apply eqb_true in E. apply (A "-"%char E eq_refl).
  - destruct I as [Ir Ib]. destruct (c == SP) eqn:E.
    + apply eqb_true in E. destruct (A SP E eq_refl) as [B1 B2]. destruct last; intro H; fin H; [apply istart_ok; auto; oks|split; assumption].
    + intro H; fin H. apply istart_ok; auto. oks.
  - destruct I as [Ir Ib]. destruct (c == SP) eqn:E.
    + apply eqb_true in E. destruct (A SP E eq_refl) as [B1 B2]. destruct last; intro H; fin H; [apply istart_ok; auto; oks|split; assumption].
    + destruct (is_nl c) eqn:En; intro H; fin H.
      * pose proof (@asc_of is_nl eq_refl c En) as Ac. apply istart_ok; auto; [|apply (A c eq_refl Ac)]. apply ok_asc. cbn [forallb]. rewrite Ac. reflexivity.
      * apply istart_ok; auto. apply ok_asc, repeat_asc. reflexivity.
Qed.

Theorem inl_utf8 : forall fuel s len cur v t, ok s -> len <= length s -> bd s len -> iu s len cur v -> inl fuel s len cur v = Ok t -> ok t.
Proof.
  induction fuel as [|f IH]; intros s len cur v t Hs Hl Hb I; [discriminate|]. cbn [inl].
  assert (R : rec_ok (fun s' len' => inl f s' len' 0 iv0)).
  { intros s' len' t' H1 H2 H3. apply IH; auto. split; [reflexivity|left; lia]. }
  set (rec := fun s' len' => inl f s' len' 0 iv0) in *.
  destruct (Nat.leb_spec len cur) as [L|L].
  - unfold ifinish.
    assert (T : forall x, ok x -> ok (i_rv v) -> bd s (i_slink v) ->
      (do t <- rec (skipn (i_slink v) s) (length (skipn (i_slink v) s)) ; Ok (i_rv v ++ x ++ B "[" ++ unescape t)) = Ok t -> ok t).
    { intros x Hx Hr Hk. destruct (rec (skipn (i_slink v) s) (length (skipn (i_slink v) s))) as [u| |] eqn:Er; cbn [rbind]; try discriminate. intro H; fin H.
      pose proof (bd_skip Hs Hk) as Ok1. assert (Ou : ok u) by (apply (R _ _ _ Ok1) in Er; [exact Er|lia|apply bd_end; auto]).
      pose proof (ok_unescape Ou). oks. }
    unfold iu in I. cbv zeta. destruct (i_state v);
      try (intro H; fin H; exact (proj1 I)); try (refine (T _ _ (proj1 I) (proj2 I)); reflexivity);
      try (refine (T _ _ (proj1 I) (proj1 (proj2 I))); reflexivity); [|lia].
    intro H; fin H. destruct I as [Ir [Lc|Ib]]; unfold ok; rewrite Ir; [replace cur with len by lia; exact Hb|exact Ib].
  - destruct (@crd_spec s cur ltac:(lia)) as (c & -> & C1 & _). cbn [rbind]. specialize (C1 ltac:(lia)).
    destruct (istep rec s len cur c v) as [r| |] eqn:E; cbn [rbind]; try discriminate. apply IH; auto.
    eapply istep_utf8; eauto.
Qed.
Theorem inline_utf8 s t : ok s -> inline s = Ok t -> ok t.
Proof. intros H. unfold inline. apply inl_utf8; auto; [apply bd_end; auto|]. split; [reflexivity|left; lia]. Qed.
