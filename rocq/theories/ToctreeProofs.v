(* Proofs about the table of contents. *)
From Verif Require Import Base Toctree ToctreeSpec.
#[local] Arguments B : simpl never.

Lemma depth_app l1 : forall d l2, depth_after d (l1 ++ l2) = match depth_after d l1 with Some d' => depth_after d' l2 | None => None end.
Proof. induction l1 as [|x l1 IH]; intros d l2; [reflexivity|]. destruct x; cbn; auto. destruct d; auto. Qed.
Lemma text_app e l1 : forall d d' l2, depth_after d l1 = Some d' -> text_at e d (l1 ++ l2) = text_at e d l1 ++ text_at e d' l2.
Proof.
  induction l1 as [|x l1 IH]; intros d d' l2 H; cbn in H |- *; [congruence|]. destruct x.
  - rewrite <- !app_assoc. do 3 f_equal. replace (d + 1) with (S d) by lia. apply IH, H.
  - destruct d as [|d]; [discriminate|]. rewrite <- !app_assoc. do 3 f_equal. cbn. rewrite Nat.sub_0_r. apply IH, H.
  - rewrite <- !app_assoc. do 5 f_equal. apply IH, H.
Qed.
Lemma items_app l1 : forall d d' l2, depth_after d l1 = Some d' -> items_at d (l1 ++ l2) = items_at d l1 ++ items_at d' l2.
Proof.
  induction l1 as [|x l1 IH]; intros d d' l2 H; cbn in H |- *; [congruence|]. destruct x.
  - apply IH, H.
  - destruct d as [|d]; [discriminate|]. cbn. rewrite Nat.sub_0_r. apply IH, H.
  - cbn. rewrite (IH _ _ l2 H). reflexivity.
Qed.

Lemma close_depth n : forall d, n <= d -> depth_after d (repeat EClose n) = Some (d - n).
Proof. induction n as [|n IH]; intros d H; cbn; [f_equal; lia|]. destruct d; [lia|]. apply IH. lia. Qed.
Lemma open_depth n : forall d, depth_after d (repeat EOpen n) = Some (d + n).
Proof. induction n as [|n IH]; intro d; cbn; [f_equal; lia|]. rewrite IH. f_equal. lia. Qed.
Lemma close_items n : forall d, items_at d (repeat EClose n) = [].
Proof. induction n as [|n IH]; intro d; cbn; auto. Qed.
Lemma open_items n : forall d, items_at d (repeat EOpen n) = [].
Proof. induction n as [|n IH]; intro d; cbn; auto. Qed.

Lemma close_run e n : forall d cur, n <= d -> n <= cur ->
  toc_close n e cur (4 * d) = Ok (text_at e d (repeat EClose n), cur - n, 4 * (d - n)).
Proof.
  induction n as [|n IH]; intros d cur Hd Hc; cbn [toc_close repeat text_at].
  - rewrite !Nat.sub_0_r. reflexivity.
  - assert (E1 : Nat.ltb (4 * d) 4 = false) by (apply Nat.ltb_ge; lia).
    assert (E2 : Nat.eqb cur 0 = false) by (apply Nat.eqb_neq; lia).
    rewrite E1, E2. cbn [orb]. replace (4 * d - 4) with (4 * (d - 1)) by lia. rewrite IH by lia. cbn [rbind].
    unfold spaces. replace (cur - 1 - n) with (cur - S n) by lia. replace (d - 1 - n) with (d - S n) by lia. reflexivity.
Qed.
Lemma open_run e n : forall d cur, toc_open n e cur (4 * d) = (text_at e d (repeat EOpen n), cur + n, 4 * (d + n)).
Proof.
  induction n as [|n IH]; intros d cur; cbn [toc_open repeat text_at].
  - rewrite !Nat.add_0_r. reflexivity.
  - replace (4 * d + 4) with (4 * (d + 1)) by lia. rewrite IH.
    replace (cur + 1 + n) with (cur + S n) by lia. replace (d + 1 + n) with (d + S n) by lia. reflexivity.
Qed.
Lemma item_run e h d : toc_item e h (4 * d) = text_at e d [EItem h].
Proof.
  unfold toc_item, spaces. cbn [text_at]. rewrite app_nil_r. f_equal. f_equal. unfold item_text.
  destruct (h_slug h), (h_text h); reflexivity.
Qed.

(* depth stays positive *)
Definition up (d : nat) (m : list entry) : Prop := forall m1 m2, m = m1 ++ m2 -> exists k, depth_after d m1 = Some (S k).

Lemma up_nil d : 0 < d -> up d [].
Proof. intros H m1 m2 E. symmetry in E. apply app_eq_nil in E. destruct E as [-> _]. destruct d; [lia|]. exists d. reflexivity. Qed.
Lemma up_cons d x m : 0 < d -> (exists d', depth_after d [x] = Some d' /\ up d' m) -> up d (x :: m).
Proof.
  intros Hd (d' & Hx & Hm) m1 m2 E. destruct m1 as [|y m1]; [destruct d; [lia|]; exists d; reflexivity|].
  injection E as <- E. destruct (Hm _ _ E) as (k & Hk). exists k. change (x :: m1) with ([x] ++ m1). rewrite depth_app, Hx. exact Hk.
Qed.
Lemma up_app m1 : forall d d' m2, up d m1 -> depth_after d m1 = Some d' -> up d' m2 -> up d (m1 ++ m2).
Proof.
  induction m1 as [|x m1 IH]; intros d d' m2 H1 E H2; [injection E as ->; exact H2|].
  assert (Hd : 0 < d) by (destruct (H1 [] (x :: m1) eq_refl) as (k & Hk); injection Hk as ->; lia).
  cbn [app]. apply up_cons; [exact Hd|]. destruct (H1 [x] m1 eq_refl) as (k & Hk). exists (S k). split; [exact Hk|].
  change (x :: m1) with ([x] ++ m1) in E. rewrite depth_app, Hk in E. apply (IH _ d'); [|exact E|exact H2].
  intros a b Eab. destruct (H1 (x :: a) b) as (k' & Hk'); [rewrite Eab; reflexivity|].
  change (x :: a) with ([x] ++ a) in Hk'. rewrite depth_app, Hk in Hk'. eauto.
Qed.
Lemma up_close n : forall d, n < d -> up d (repeat EClose n).
Proof.
  induction n as [|n IH]; intros d H; cbn; [apply up_nil; lia|]. apply up_cons; [lia|]. exists (d - 1). split.
  - destruct d as [|d]; [lia|]. cbn. f_equal. lia.
  - apply IH. lia.
Qed.
Lemma up_open n : forall d, 0 < d -> up d (repeat EOpen n).
Proof. induction n as [|n IH]; intros d H; cbn; [apply up_nil; lia|]. apply up_cons; [lia|]. exists (S d). split; [reflexivity|apply IH; lia]. Qed.

Lemma nel_close n l : no_empty_list (repeat EClose n ++ l) <-> no_empty_list l.
Proof. induction n as [|n IH]; cbn; [tauto|exact IH]. Qed.
Lemma nel_open n h l : no_empty_list (repeat EOpen n ++ EItem h :: l) <-> no_empty_list l.
Proof.
  induction n as [|n IH]; cbn [repeat app]; [cbn; tauto|]. destruct n as [|n]; [cbn; tauto|]. exact IH.
Qed.

Lemma loop_run e low maxdepth hs : 0 < low -> (forall h, In h hs -> low <= h_level h) -> forall d, 0 < d ->
  exists m d', toc_loop e low maxdepth hs (low + d - 1) (4 * d) = Ok (text_at e d m, low + d' - 1, 4 * d') /\
    depth_after d m = Some d' /\ 0 < d' /\ up d m /\
    items_at d m = map (fun h => (h_level h - low + 1, h)) (filter (fun h => negb (too_deep low maxdepth h)) hs) /\
    (forall l, no_empty_list l -> no_empty_list (m ++ l)) /\
    (forall l, d = 1 -> no_empty_list l -> m <> [] -> no_empty_list (EOpen :: m ++ l)).
Proof.
  intros Hlow. induction hs as [|h hs IH]; intros Hall d Hd; cbn [toc_loop filter map].
  - exists [], d. repeat split; auto; try (apply up_nil; lia). intros l _ _ H. congruence.
  - assert (Hh : low <= h_level h) by (apply Hall; left; reflexivity).
    assert (Hall' : forall h, In h hs -> low <= h_level h) by (intros; apply Hall; right; assumption).
    destruct (too_deep low maxdepth h) eqn:Et; cbn [negb].
    + apply IH; assumption.
    + set (a := low + d - 1 - h_level h). rewrite close_run by (subst a; lia). cbn [rbind].
      set (cur1 := low + d - 1 - a). set (b := h_level h - cur1). rewrite open_run.
      set (d1 := d - a + b). assert (Hd1 : d1 = h_level h - low + 1) by (subst d1 b cur1 a; lia).
      assert (Hcur : cur1 + b = low + d1 - 1) by (subst d1 b cur1 a; lia). rewrite Hcur.
      destruct (IH Hall' d1 ltac:(lia)) as (m & d' & E & H1 & H2 & H3 & H4 & H5 & H6). rewrite E. cbn [rbind].
      exists (repeat EClose a ++ repeat EOpen b ++ EItem h :: m), d'.
      assert (Ha : a < d) by (subst a; lia).
      assert (D1 : depth_after d (repeat EClose a) = Some (d - a)) by (apply close_depth; lia).
      assert (D2 : depth_after (d - a) (repeat EOpen b) = Some d1) by (apply open_depth).
      split; [|split; [|split; [|split; [|split; [|split]]]]].
      * f_equal. f_equal. f_equal. rewrite (text_app _ _ D1), (text_app _ _ D2). rewrite item_run.
        change (EItem h :: m) with ([EItem h] ++ m). rewrite (@text_app e [EItem h] d1 d1 m eq_refl). reflexivity.
      * rewrite depth_app, D1, depth_app, D2. exact H1.
      * exact H2.
      * apply (up_app (up_close Ha) D1). apply (@up_app (repeat EOpen b) (d - a) d1); [apply up_open; lia|exact D2|].
        apply up_cons; [lia|]. exists d1. split; [reflexivity|exact H3].
      * rewrite (items_app _ D1), close_items, (items_app _ D2), open_items. cbn. rewrite H4, Hd1. reflexivity.
      * intros l Hl. rewrite <- !app_assoc. apply nel_close. cbn [app]. apply nel_open. apply H5, Hl.
      * intros l -> Hl _. assert (Ea : a = 0) by (subst a; lia). rewrite Ea. cbn [repeat app]. rewrite <- app_assoc. cbn [app].
        apply (@nel_open (S b) h). apply H5, Hl.
Qed.

Lemma lower_spec hs : forall low, (low = 0 -> hs <> []) -> (forall h, In h hs -> 0 < h_level h) ->
  let r := lower_level low hs in
  0 < r /\ (forall h, In h hs -> r <= h_level h) /\ (low <> 0 -> r <= low) /\ ((low <> 0 /\ r = low) \/ exists h, In h hs /\ h_level h = r).
Proof.
  induction hs as [|h hs IH]; intros low H0 Hp; cbn [lower_level]; cbv zeta.
  - assert (low <> 0) by (intro E; apply (H0 E); reflexivity). split; [lia|]. split; [intros ? []|]. split; [lia|left; split; [assumption|reflexivity]].
  - assert (Hh : 0 < h_level h) by (apply Hp; left; reflexivity).
    assert (Hp' : forall h, In h hs -> 0 < h_level h) by (intros; apply Hp; right; assumption).
    set (low' := if Nat.eqb low 0 || Nat.ltb (h_level h) low then h_level h else low).
    assert (Hl' : low' <> 0 /\ low' <= h_level h /\ (low <> 0 -> low' <= low) /\ (low' = low /\ low <> 0 \/ low' = h_level h)).
    { subst low'. destruct (Nat.eqb_spec low 0); cbn [orb]; [lia|]. destruct (Nat.ltb_spec (h_level h) low); lia. }
    destruct Hl' as (L1 & L2 & L3 & L4).
    destruct (IH low') as (R1 & R2 & R3 & R4); [intro Hx; destruct (L1 Hx)|exact Hp'|]. specialize (R3 L1). split; [exact R1|]. split; [|split].
    + intros x [<-|Hx]; [lia|apply R2, Hx].
    + intros Hn. specialize (L3 Hn). lia.
    + destruct R4 as [[_ R4]|(x & Hx & R4)]; [|right; exists x; split; [right; exact Hx|exact R4]].
      destruct L4 as [[L4 Hn]|L4]; [left; split; [exact Hn|lia]|right; exists h; split; [left; reflexivity|lia]].
Qed.

Lemma shown_deep low maxdepth h : low <= h_level h -> (- 2 ^ 31 <= maxdepth < 2 ^ 31)%Z -> (Z.of_nat (h_level h) < 2 ^ 63)%Z ->
  negb (too_deep low maxdepth h) = shown low maxdepth h.
Proof.
  intros Hl Hm Hh. unfold too_deep, shown. rewrite Nat2Z.inj_sub by exact Hl.
  destruct (Z.ltb_spec maxdepth 0).
  - assert (E : (maxdepth mod 2 ^ 64 = maxdepth + 2 ^ 64)%Z).
    { symmetry. apply Z.mod_unique with (q := (-1)%Z); lia. }
    rewrite E. destruct (Z.leb_spec (maxdepth + 2 ^ 64) (Z.of_nat (h_level h) - Z.of_nat low)); [lia|reflexivity].
  - rewrite Z.mod_small by lia. destruct (Z.leb_spec maxdepth (Z.of_nat (h_level h) - Z.of_nat low)), (Z.ltb_spec (Z.of_nat (h_level h)) (Z.of_nat low + maxdepth)); try reflexivity; lia.
Qed.

Theorem toctree_spec hs maxdepth endl : hs <> [] -> maxdepth <> 0%Z -> (- 2 ^ 31 <= maxdepth < 2 ^ 31)%Z ->
  (forall h, In h hs -> 0 < h_level h /\ (Z.of_nat (h_level h) < 2 ^ 63)%Z) ->
  exists low l, lowest hs low /\ 0 < low /\
    toctree_render hs maxdepth endl = Ok (Some (text_at (toc_endl endl) 0 l)) /\
    depth_after 0 l = Some 0 /\ one_list l /\ no_empty_list l /\
    items_at 0 l = map (fun h => (h_level h - low + 1, h)) (filter (shown low maxdepth) hs).
Proof.
  intros Hne Hmd Hrange Hpos. 
  destruct (@lower_spec hs 0) as (L1 & L2 & _ & L3); [auto|intros h Hh; apply Hpos, Hh|].
  set (low := lower_level 0 hs) in *. destruct L3 as [[L3 _]|(h0 & Hin & Hl0)]; [congruence|].
  destruct (@loop_run (toc_endl endl) low maxdepth hs L1 L2 1 ltac:(lia)) as (m & d' & E & D & Hd' & Hup & Hit & Hn1 & Hn2).
  exists low, (EOpen :: (m ++ repeat EClose (d' - 1)) ++ [EClose]).
  assert (Hfil : filter (fun h => negb (too_deep low maxdepth h)) hs = filter (shown low maxdepth) hs).
  { apply filter_ext_in. intros h Hh. apply shown_deep; [apply L2, Hh|exact Hrange|apply Hpos, Hh]. }
  assert (Hm : m <> []).
  { intros ->. cbn in Hit. rewrite Hfil in Hit. 
    assert (Hs : In h0 (filter (shown low maxdepth) hs)).
    { apply filter_In. split; [exact Hin|]. unfold shown. rewrite Hl0. destruct (Z.ltb_spec maxdepth 0); [reflexivity|]. apply Z.ltb_lt. lia. }
    destruct (filter (shown low maxdepth) hs); [destruct Hs|discriminate]. }
  assert (Ecl : repeat EClose d' = repeat EClose (d' - 1) ++ [EClose]).
  { change [EClose] with (repeat EClose 1). rewrite <- repeat_app. f_equal. lia. }
  assert (El : (m ++ repeat EClose (d' - 1)) ++ [EClose] = m ++ repeat EClose d') by (rewrite Ecl, app_assoc; reflexivity).
  split; [split; [exists h0; auto|exact L2]|]. split; [exact L1|].
  split; [|split; [|split; [|split]]].
  - unfold toctree_render. destruct hs as [|x r]; [congruence|]. fold low.
    rewrite (proj2 (Z.eqb_neq _ _) Hmd). rewrite (proj2 (Nat.eqb_neq low 0)) by lia.
    replace (low + 1 - 1) with low in E by lia. change 4 with (4 * 1). rewrite E. cbn [rbind].
    replace (low + d' - 1 + 1 - low) with d' by lia. rewrite close_run by lia. cbn [rbind].
    rewrite El. cbn [text_at]. rewrite (text_app _ _ D). reflexivity.
  - rewrite El. cbn [depth_after]. rewrite depth_app, D, close_depth by lia. f_equal. lia.
  - exists (m ++ repeat EClose (d' - 1)). split; [reflexivity|]. apply (up_app Hup D). apply up_close. lia.
  - rewrite El. apply Hn2; [reflexivity| |exact Hm]. rewrite <- (app_nil_r (repeat EClose d')). apply nel_close. exact I.
  - rewrite El. cbn [items_at]. rewrite (items_app _ D), close_items, app_nil_r, Hit, Hfil. reflexivity.
Qed.
