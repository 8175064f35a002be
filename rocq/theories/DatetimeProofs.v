From Verif Require Import Base Datetime.
Open Scope Z_scope.

(* ---------- specification ---------- *)
(* the digits of a number below 100, or of a year *)
Definition digit (n : Z) : ascii := ascii_of_N (Z.to_N (48 + n)).
Definition two (n : Z) : bytes := [digit (n / 10); digit (n mod 10)].
Definition four (n : Z) : bytes := two (n / 100) ++ two (n mod 100).

Definition date_text (y m d : Z) : bytes := four y ++ B "-" ++ two m ++ B "-" ++ two d.
Definition date_ok (y m d : Z) : Prop := 1900 <= y <= 9999 /\ 1 <= m <= 12 /\ 1 <= d <= 31.

(* the strings the parser accepts and the numbers they stand for *)
Inductive denotes : bytes -> tm -> Prop :=
| DDate y m d : date_ok y m d ->
    denotes (date_text y m d) (Tm (y - 1900) (m - 1) d 0 0 0)
| DHour y m d h : date_ok y m d -> 0 <= h <= 23 ->
    denotes (date_text y m d ++ B " " ++ two h) (Tm (y - 1900) (m - 1) d h 0 0)
| DMinute y m d h mi : date_ok y m d -> 0 <= h <= 23 -> 0 <= mi <= 59 ->
    denotes (date_text y m d ++ B " " ++ two h ++ B ":" ++ two mi) (Tm (y - 1900) (m - 1) d h mi 0)
| DSecond y m d h mi s : date_ok y m d -> 0 <= h <= 23 -> 0 <= mi <= 59 -> 0 <= s <= 60 ->
    denotes (date_text y m d ++ B " " ++ two h ++ B ":" ++ two mi ++ B ":" ++ two s)
            (Tm (y - 1900) (m - 1) d h mi s).

(* same, with anything after the seconds *)
Inductive denotes_lax : bytes -> tm -> Prop :=
| LExact s t : denotes s t -> denotes_lax s t
| LTail y m d h mi s x : date_ok y m d -> 0 <= h <= 23 -> 0 <= mi <= 59 -> 0 <= s <= 60 ->
    denotes_lax ((date_text y m d ++ B " " ++ two h ++ B ":" ++ two mi ++ B ":" ++ two s) ++ x)
            (Tm (y - 1900) (m - 1) d h mi s).

(* ---------- digits ---------- *)
Lemma digit_nb n : 0 <= n <= 9 -> nb (digit n) = Z.to_N (48 + n).
Proof. intro H. unfold nb, digit. apply N_ascii_embedding. lia. Qed.
Lemma dval_digit n : 0 <= n <= 9 -> dval (digit n) = n.
Proof. intro H. unfold dval. rewrite digit_nb by exact H. lia. Qed.
Lemma dig_spec hi k c : hi = digit k -> 0 <= k <= 9 ->
  dig hi c = true <-> exists n, 0 <= n <= k /\ c = digit n.
Proof.
  intros -> Hk. unfold dig, in_range. rewrite andb_true_iff, !N.leb_le, digit_nb by exact Hk.
  replace (nb "0"%char) with 48%N by reflexivity. split.
  - intros [H1 H2]. exists (Z.of_N (nb c) - 48). split; [lia|]. unfold digit.
    replace (Z.to_N (48 + (Z.of_N (nb c) - 48))) with (nb c) by lia. unfold nb.
    symmetry. apply ascii_N_embedding.
  - intros (n & Hn & ->). rewrite digit_nb by lia. lia.
Qed.
Lemma dig_digit hi k n : hi = digit k -> 0 <= k <= 9 -> 0 <= n <= 9 -> dig hi (digit n) = (n <=? k).
Proof.
  intros Hh Hk Hn. destruct (Z.leb_spec n k) as [H|H].
  - apply (dig_spec _ Hh Hk). exists n. split; [lia|reflexivity].
  - apply not_true_iff_false. intro Hd. apply (dig_spec _ Hh Hk) in Hd. destruct Hd as (m & Hm & E).
    assert (dval (digit n) = dval (digit m)) by congruence. rewrite !dval_digit in H0 by lia. lia.
Qed.

Lemma div10 a b : 0 <= b <= 9 -> (a * 10 + b) / 10 = a.
Proof. intro H. symmetry. apply Z.div_unique with b; lia. Qed.
Lemma mod10 a b : 0 <= b <= 9 -> (a * 10 + b) mod 10 = b.
Proof. intro H. symmetry. apply Z.mod_unique with a; lia. Qed.
Lemma two_combine a b : 0 <= a <= 9 -> 0 <= b <= 9 -> two (a * 10 + b) = [digit a; digit b].
Proof. intros Ha Hb. unfold two. rewrite div10, mod10 by lia. reflexivity. Qed.
Lemma two_split n : 0 <= n <= 99 -> exists a b, 0 <= a <= 9 /\ 0 <= b <= 9 /\ n = a * 10 + b.
Proof.
  intro H. exists (n / 10), (n mod 10). pose proof (Z.mod_pos_bound n 10). pose proof (Z.div_mod n 10).
  lia.
Qed.
Lemma four_combine a b c d : 0 <= a <= 9 -> 0 <= b <= 9 -> 0 <= c <= 9 -> 0 <= d <= 9 ->
  four (a * 1000 + b * 100 + c * 10 + d) = [digit a; digit b; digit c; digit d].
Proof.
  intros Ha Hb Hc Hd. unfold four.
  replace ((a * 1000 + b * 100 + c * 10 + d) / 100) with (a * 10 + b)
    by (apply Z.div_unique with (c * 10 + d); lia).
  replace ((a * 1000 + b * 100 + c * 10 + d) mod 100) with (c * 10 + d)
    by (apply Z.mod_unique with (a * 10 + b); lia).
  rewrite !two_combine by lia. reflexivity.
Qed.
Lemma four_split n : 0 <= n <= 9999 -> exists a b c d,
  0 <= a <= 9 /\ 0 <= b <= 9 /\ 0 <= c <= 9 /\ 0 <= d <= 9 /\ n = a * 1000 + b * 100 + c * 10 + d.
Proof.
  intro H. pose proof (Z.mod_pos_bound n 100). pose proof (Z.div_mod n 100).
  destruct (@two_split (n / 100)) as (a & b & ? & ? & ?); [lia|].
  destruct (@two_split (n mod 100)) as (c & d & ? & ? & ?); [lia|].
  exists a, b, c, d. lia.
Qed.

(* ---------- forward: what denotes says is accepted ---------- *)
Lemma loop_step st tmp t c r st' tmp' t' : dt_step st tmp t c = inl (st', tmp', t') ->
  dt_loop st tmp t (c :: r) = dt_loop st' tmp' t' r.
Proof. intro H. cbn [dt_loop]. rewrite H. reflexivity. Qed.

(* dig on a known digit *)
Ltac digs := repeat match goal with
  | |- context [dig ?hi (digit ?n)] =>
      let k := eval vm_compute in (dval hi) in
      rewrite (@dig_digit hi k n eq_refl ltac:(lia) ltac:(lia));
      replace (n <=? k) with true by lia; cbv iota
  end.
Ltac step := erewrite loop_step; [|unfold dt_step; digs; rewrite ?eqb_refl, ?dval_digit by lia; cbv zeta iota;
  repeat match goal with |- context [if ?b then _ else _] => replace b with false by lia; cbv iota end;
  reflexivity].

Lemma run_date y m d rest : date_ok y m d ->
  exists tmp, dt_loop Y1 0 tm0 (date_text y m d ++ rest)
  = dt_loop Spc tmp (Tm (y - 1900) (m - 1) d 0 0 0) rest.
Proof.
  intros (Hy & Hm & Hd). unfold date_text.
  destruct (@four_split y) as (y1 & y2 & y3 & y4 & ? & ? & ? & ? & ->); [lia|].
  destruct (@two_split m) as (m1 & m2 & ? & ? & ->); [lia|].
  destruct (@two_split d) as (d1 & d2 & ? & ? & ->); [lia|].
  rewrite four_combine, !two_combine by lia. cbn [app B list_ascii_of_string].
  eexists. do 10 step. f_equal. unfold set_year, set_mon, set_mday. cbn. f_equal; lia.
Qed.

Lemma run_hour h tmp t rest : 0 <= h <= 23 ->
  exists tmp', dt_loop Spc tmp t (B " " ++ two h ++ rest) = dt_loop Co1 tmp' (set_hour t h) rest.
Proof.
  intro H. destruct (@two_split h) as (a & b & ? & ? & ->); [lia|]. rewrite two_combine by lia.
  cbn [app B list_ascii_of_string]. change " "%char with SP. eexists. do 3 step. reflexivity.
Qed.
Lemma run_min h tmp t rest : 0 <= h <= 59 ->
  exists tmp', dt_loop Co1 tmp t (B ":" ++ two h ++ rest) = dt_loop Co2 tmp' (set_min t h) rest.
Proof.
  intro H. destruct (@two_split h) as (a & b & ? & ? & ->); [lia|]. rewrite two_combine by lia.
  cbn [app B list_ascii_of_string]. eexists. do 3 step. reflexivity.
Qed.
Lemma run_sec h tmp t rest : 0 <= h <= 60 ->
  exists tmp', dt_loop Co2 tmp t (B ":" ++ two h ++ rest) = dt_loop Done tmp' (set_sec t h) rest.
Proof.
  intro H. destruct (@two_split h) as (a & b & ? & ? & ->); [lia|]. rewrite two_combine by lia.
  cbn [app B list_ascii_of_string]. eexists. do 3 step. reflexivity.
Qed.
Lemma run_done tmp t x : dt_loop Done tmp t x = inl (Done, t).
Proof. induction x as [|c x IH]; [reflexivity|]. exact IH. Qed.

Lemma lax_accepted s t : denotes_lax s t -> dt_parse s = inl t.
Proof.
  assert (Hfull : forall y m d h mi s x, date_ok y m d -> 0 <= h <= 23 -> 0 <= mi <= 59 -> 0 <= s <= 60 ->
    dt_parse ((date_text y m d ++ B " " ++ two h ++ B ":" ++ two mi ++ B ":" ++ two s) ++ x)
    = inl (Tm (y - 1900) (m - 1) d h mi s)).
  { intros. rewrite <- !app_assoc. unfold dt_parse.
    destruct (@run_date y m d (B " " ++ two h ++ B ":" ++ two mi ++ B ":" ++ two s0 ++ x)) as [t1 ->]; [assumption|].
    destruct (@run_hour h t1 (Tm (y - 1900) (m - 1) d 0 0 0) (B ":" ++ two mi ++ B ":" ++ two s0 ++ x)) as [t2 ->];
      [assumption|].
    destruct (@run_min mi t2 (set_hour (Tm (y - 1900) (m - 1) d 0 0 0) h) (B ":" ++ two s0 ++ x)) as [t3 ->];
      [assumption|].
    destruct (@run_sec s0 t3 (set_min (set_hour (Tm (y - 1900) (m - 1) d 0 0 0) h) mi) x) as [t4 ->];
      [assumption|].
    rewrite run_done. reflexivity. }
  intros [s0 t0 H|]; [|apply Hfull; assumption]. destruct H.
  - destruct (@run_date y m d []) as [t1 E]; [assumption|]. rewrite app_nil_r in E.
    unfold dt_parse. rewrite E. reflexivity.
  - destruct (@run_date y m d (B " " ++ two h)) as [t1 E]; [assumption|].
    destruct (@run_hour h t1 (Tm (y - 1900) (m - 1) d 0 0 0) []) as [t2 E2]; [assumption|].
    rewrite app_nil_r in E2. unfold dt_parse. rewrite E, E2. reflexivity.
  - destruct (@run_date y m d (B " " ++ two h ++ B ":" ++ two mi)) as [t1 E]; [assumption|].
    destruct (@run_hour h t1 (Tm (y - 1900) (m - 1) d 0 0 0) (B ":" ++ two mi)) as [t2 E2]; [assumption|].
    destruct (@run_min mi t2 (set_hour (Tm (y - 1900) (m - 1) d 0 0 0) h) []) as [t3 E3]; [assumption|].
    rewrite app_nil_r in E3. unfold dt_parse. rewrite E, E2, E3. reflexivity.
  - rewrite <- (app_nil_r (date_text y m d ++ _)). apply Hfull; assumption.
Qed.

(* ---------- backward: only those ---------- *)
Definition accepting (st : dstate) : Prop := In st [Spc; Co1; Co2; Done].
Definition accepts (st : dstate) (tmp : Z) (t : tm) (s : bytes) (r : tm) : Prop :=
  exists st', dt_loop st tmp t s = inl (st', r) /\ accepting st'.

Lemma accepts_inv st tmp t s r : accepts st tmp t s r ->
  (s = [] /\ accepting st /\ r = t) \/
  exists c s' st1 tmp1 t1, s = c :: s' /\ dt_step st tmp t c = inl (st1, tmp1, t1) /\ accepts st1 tmp1 t1 s' r.
Proof.
  intros (st' & H & Ha). destruct s as [|c s]; cbn [dt_loop] in H.
  - injection H as <- <-. left. auto.
  - right. destruct (dt_step st tmp t c) as [[[st1 tmp1] t1]|e] eqn:E; [|discriminate].
    exists c, s, st1, tmp1, t1. split; [reflexivity|]. split; [exact E|]. exists st'. auto.
Qed.

Ltac dig_inv H := match type of H with
  | context [dig ?hi ?c] =>
      let k := eval vm_compute in (dval hi) in
      let E := fresh "E" in let n := fresh "n" in
      destruct (dig hi c) eqn:E; [|discriminate];
      apply (@dig_spec hi k c eq_refl ltac:(lia)) in E; destruct E as (n & ? & ->);
      rewrite dval_digit in H by lia
  | context [?c == ?x] =>
      let E := fresh "E" in destruct (c == x) eqn:E; [|discriminate]; apply eqb_true in E; subst
  end.
Ltac back H := apply accepts_inv in H; destruct H as [(-> & Ha & ->)|(?c & ?s & ?st & ?tmp & ?t & -> & Hs & H)];
  [try (exfalso; unfold accepting in Ha; simpl in Ha; intuition discriminate)
  |unfold dt_step in Hs; dig_inv Hs; cbv zeta in Hs;
   try (match type of Hs with context [if ?b then _ else _] => destruct b eqn:?; [discriminate|] end);
   injection Hs as <- <- <-].

Lemma accepts_Y1 s r : accepts Y1 0 tm0 s r -> denotes_lax s r.
Proof.
  intro H. do 10 back H.
  match goal with |- denotes_lax (digit ?y1 :: digit ?y2 :: digit ?y3 :: digit ?y4 :: _ :: digit ?m1 :: digit ?m2
     :: _ :: digit ?d1 :: digit ?d2 :: ?s) _ =>
    set (y := y1 * 1000 + y2 * 100 + y3 * 10 + y4); set (m := m1 * 10 + m2); set (d := d1 * 10 + d2);
    assert (Hok : date_ok y m d) by (unfold date_ok, y, m, d; lia);
    assert (Ht : forall x, digit y1 :: digit y2 :: digit y3 :: digit y4 :: "-"%char :: digit m1 :: digit m2
     :: "-"%char :: digit d1 :: digit d2 :: x = date_text y m d ++ x)
     by (intro x; unfold date_text, y, m, d; rewrite four_combine, !two_combine by lia; reflexivity);
    rewrite Ht; revert H;
    match goal with |- accepts Spc ?tmp ?t ?s0 _ -> _ =>
      replace t with (Tm (y - 1900) (m - 1) d 0 0 0)
        by (unfold set_year, set_mon, set_mday; cbn; unfold y, m, d; f_equal; lia)
    end; clearbody y m d; clear Ht
  end.
  intro H. back H.
  { rewrite app_nil_r. apply LExact. apply DDate. exact Hok. }
  do 2 back H.
  match goal with H : accepts Co1 _ _ _ _ |- denotes_lax (_ ++ SP :: digit ?a :: digit ?b :: ?x) _ =>
    set (h := a * 10 + b); assert (Hh : 0 <= h <= 23) by (unfold h; lia);
    replace (SP :: digit a :: digit b :: x) with (B " " ++ two h ++ x)
      by (unfold h; rewrite two_combine by lia; reflexivity);
    change (a * 10 + b) with h in H end.
  clearbody h. back H.
  { rewrite app_nil_r. apply LExact. apply DHour; assumption. }
  do 2 back H.
  match goal with H : accepts Co2 _ _ _ _ |- denotes_lax (_ ++ _ ++ _ ++ ":"%char :: digit ?a :: digit ?b :: ?x) _ =>
    set (mi := a * 10 + b); assert (Hmi : 0 <= mi <= 59) by (unfold mi; lia);
    replace (":"%char :: digit a :: digit b :: x) with (B ":" ++ two mi ++ x)
      by (unfold mi; rewrite two_combine by lia; reflexivity);
    change (a * 10 + b) with mi in H end.
  clearbody mi. back H.
  { rewrite app_nil_r. apply LExact. apply DMinute; assumption. }
  do 2 back H.
  match goal with H : accepts Done _ _ _ _
    |- denotes_lax (_ ++ _ ++ _ ++ _ ++ _ ++ ":"%char :: digit ?a :: digit ?b :: ?x) _ =>
    set (se := a * 10 + b); assert (Hse : 0 <= se <= 60) by (unfold se; lia);
    replace (":"%char :: digit a :: digit b :: x) with (B ":" ++ two se ++ x)
      by (unfold se; rewrite two_combine by lia; reflexivity);
    change (a * 10 + b) with se in H end.
  clearbody se. destruct H as (st' & H & _). rewrite run_done in H. injection H as <- <-.
  match goal with |- denotes_lax (_ ++ _ ++ _ ++ _ ++ _ ++ _ ++ _ ++ ?x) _ =>
    pose proof (@LTail y m d h mi se x Hok Hh Hmi Hse) as HL end.
  rewrite <- !app_assoc in HL. exact HL.
Qed.

Lemma dt_parse_exact s t : dt_parse s = inl t <-> denotes_lax s t.
Proof.
  split; [|apply lax_accepted]. intro H. apply accepts_Y1. unfold dt_parse in H.
  destruct (dt_loop Y1 0 tm0 s) as [[st t']|e] eqn:E; [|discriminate].
  exists st. unfold accepting. destruct st; try discriminate; injection H as <-; rewrite E; simpl; auto 10.
Qed.
