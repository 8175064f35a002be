(* Deciding the hypotheses of the theorem on texts with lists, for texts whose lines all end in LF. *)
From Verif Require Import Base Utils Content BlockSpec DocSpec ListSpec.
From Coq Require Import Lia.

Definition lfb (c : ascii) : bool := c == LF.
Definition lbb (x : bytes) : bool := match rev x with [] => true | c :: _ => lfb c end.
Definition blankb (c : ascii) : bool := (c == SP) || (c == TAB).
Fixpoint scan (st : option bool) (u : bytes) : option bool :=
  match u with
  | [] => st
  | c :: r => scan (match st with None => None | Some false => if lfb c then None else Some true
                    | Some true => if lfb c then Some false else Some true end) r
  end.
Fixpoint numb (seen : bool) (p : bytes) : bool :=
  match p with
  | [] => false
  | c :: r => if is_digit c then numb true r else seen && (c == "."%char) && forallb blankb r
  end.
Definition bulb (p : bytes) : bool := match p with d :: w => existsb (fun a => a == d) (B "*+-") && forallb blankb w | [] => false end.

Lemma scan_app u : forall st v, scan st (u ++ v) = scan (scan st u) v.
Proof. induction u as [|c u IH]; intros st v; [reflexivity|]. cbn. apply IH. Qed.
Lemma lfb_spec c : lfb c = true <-> c = LF.
Proof. apply eqb_true. Qed.
Lemma scan_line l : Forall (fun c => ~ newline_byte c) l -> forall st, st = Some true \/ (st = Some false /\ l <> []) -> scan st l = Some true.
Proof.
  induction 1 as [|c l Hc _ IH]; intros st Hs; [destruct Hs as [->|[_ H]]; [reflexivity|congruence]|].
  assert (lfb c = false) by (destruct (lfb c) eqn:E; [|reflexivity]; apply lfb_spec in E; destruct Hc; left; exact E).
  cbn. rewrite H. destruct Hs as [->|[-> _]]; apply IH; auto.
Qed.
Lemma scan_on u : lines_on u -> ~ In CR u -> scan (Some false) u = Some false.
Proof.
  induction 1 as [|u l e Hu IH Hl Hn He]; intro Hc; [reflexivity|]. rewrite !in_app_iff in Hc.
  rewrite !scan_app, IH by tauto. rewrite (scan_line Hn) by auto.
  cbn in He. repeat (destruct He as [He|He]); try (destruct He; fail); subst e; try reflexivity; exfalso; apply Hc; right; right; cbn; auto.
Qed.
Lemma lbb_spec x : ~ In CR x -> line_break x <-> lbb x = true.
Proof.
  intro Hc. unfold lbb, line_break. split.
  - intros [->|(x' & c & -> & Hn)]; [reflexivity|]. rewrite rev_app_distr. cbn. apply lfb_spec. destruct Hn as [E|E]; [exact E|].
    exfalso. apply Hc. subst c. apply in_or_app. right. left. reflexivity.
  - intro H. destruct (rev x) as [|c r] eqn:E; [left; rewrite <- (rev_involutive x), E; reflexivity|right].
    exists (rev r), c. split; [rewrite <- (rev_involutive x), E; reflexivity|left; apply lfb_spec, H].
Qed.
Lemma blankb_spec c : blankb c = true <-> blank c.
Proof. unfold blankb, blank. rewrite orb_true_iff, !eqb_true. tauto. Qed.
Lemma blanks_spec w : forallb blankb w = true <-> Forall blank w.
Proof. rewrite forallb_forall, Forall_forall. split; intros H x Hx; apply blankb_spec, H, Hx. Qed.
Lemma numb_spec p : numb false p = true <-> numbered p.
Proof.
  assert (G : forall p seen, numb seen p = true <-> exists ds w, p = ds ++ "."%char :: w /\ (seen = true \/ ds <> []) /\
    Forall (fun c => is_digit c = true) ds /\ Forall blank w).
  { clear p. induction p as [|c p IH]; intro seen; cbn; [split; [discriminate|intros ([|? ?] & w & E & _); discriminate]|].
    destruct (is_digit c) eqn:Ed.
    - rewrite IH. split.
      + intros (ds & w & -> & _ & H2 & H3). exists (c :: ds), w. split; [reflexivity|]. split; [right; discriminate|auto].
      + intros ([|d ds] & w & E & H1 & H2 & H3); [injection E as -> _; discriminate|]. injection E as -> ->.
        exists ds, w. inversion H2; auto.
    - rewrite !andb_true_iff, eqb_true, blanks_spec. split.
      + intros ((-> & ->) & H). exists [], p. auto.
      + intros ([|d ds] & w & E & H1 & H2 & H3); [injection E as -> ->; destruct H1 as [->|?]; [auto|congruence]|].
        injection E as -> ->. inversion H2. congruence. }
  rewrite G. split; intros (ds & w & H1 & H2 & H3); exists ds, w; [destruct H2 as [?|?]; [discriminate|]|]; tauto.
Qed.
Lemma bulb_spec p : bulb p = true <-> exists d w, p = d :: w /\ In d (B "*+-") /\ Forall blank w.
Proof.
  destruct p as [|d w]; cbn [bulb]; [split; [discriminate|intros (? & ? & E & _); discriminate]|].
  rewrite andb_true_iff, blanks_spec, existsb_exists. split.
  - intros ((a & Ha & E) & H). apply eqb_true in E. subst a. eauto.
  - intros (d' & w' & E & H1 & H2). injection E as <- <-. split; [exists d; split; [exact H1|apply eqb_true; reflexivity]|exact H2].
Qed.

(* every way to cut [s] in two *)
Definition cuts (s : bytes) (P : bytes -> bytes -> bool) : bool :=
  forallb (fun n => P (firstn n s) (skipn n s)) (seq 0 (S (length s))).
Lemma cuts_spec s P : cuts s P = true -> forall x y, s = x ++ y -> P x y = true.
Proof.
  unfold cuts. rewrite forallb_forall. intros H x y ->. specialize (H (length x)).
  rewrite firstn_app, Nat.sub_diag, firstn_all, app_nil_r in H. rewrite skipn_app, Nat.sub_diag, skipn_all in H. cbn [app skipn firstn] in H.
  apply H. apply in_seq. rewrite app_length. lia.
Qed.
Definition nonlb (c : ascii) : bool := negb (lfb c).

Definition keptb (s : bytes) : bool :=
  cuts s (fun x y => negb (lbb x) || cuts y (fun u v =>
    match u, v with
    | [], _ | _, [] => true
    | _, c :: r => lfb c || negb (match scan (Some false) u with Some false => true | _ => false end) ||
        cuts y (fun p z =>
          (negb (bulb p) || match z with c :: _ => blankb c || lfb c | [] => true end || starts_with v p || starts_with v (repeat SP (length p))) &&
          (negb (numb false p) || match z with c :: _ => blankb c || lfb c | [] => true end || starts_with v (repeat SP (length p)) ||
             (numb false (firstn (length p) v) && Nat.ltb (length p) (length v) && nonlb (nth (length p) v LF))))
    end)).
Lemma lfb_not c : ~ newline_byte c -> lfb c = false.
Proof. intro H. destruct (lfb c) eqn:E; [|reflexivity]. apply lfb_spec in E. destruct H. left. exact E. Qed.
Lemma sw_spec : forall (p l : bytes), starts_with l p = true -> exists z, l = p ++ z.
Proof.
  induction p as [|a p IH]; intros [|b l] H; try discriminate; try (eexists; reflexivity).
  cbn in H. apply andb_true_iff in H. destruct H as [E H]. apply eqb_true in E. subst. destruct (IH _ H) as (z & ->). exists z. reflexivity.
Qed.
Lemma keptb_spec s : ~ In CR s -> keptb s = true -> lists_kept s.
Proof.
  intros Hc H x y u c r Es Hx Ey Hu Hn Hnl. unfold keptb in H. pose proof (cuts_spec H Es) as K. cbn beta in K.
  assert (Hcx : ~ In CR x /\ ~ In CR y) by (rewrite Es, in_app_iff in Hc; tauto). destruct Hcx as [Hcx Hcy].
  rewrite (proj1 (lbb_spec Hcx) Hx) in K. cbn [negb orb] in K. pose proof (cuts_spec K Ey) as K1. cbn beta in K1.
  destruct u as [|a u]; [congruence|]. rewrite (lfb_not Hnl), (scan_on Hu) in K1 by (rewrite Ey, in_app_iff in Hcy; tauto). cbn [negb orb] in K1.
  set (v := c :: r) in *. split.
  - intros p (d & w & c0 & r0 & Ep & Ey' & Hd & Hw & Hb & Hl & _). pose proof (cuts_spec K1 Ey') as K2. cbn beta in K2.
    apply andb_true_iff in K2. destruct K2 as [K2 _]. assert (Bp : bulb p = true) by (apply bulb_spec; eauto).
    rewrite Bp, (lfb_not Hl) in K2. destruct (blankb c0) eqn:E; [apply blankb_spec in E; contradiction|]. cbn [negb orb] in K2.
    apply orb_true_iff in K2. destruct K2 as [K2|K2]; [left; apply sw_spec, K2|right; apply sw_spec, K2].
  - intros p (c0 & r0 & Ey' & Hd & Hb & Hl). pose proof (cuts_spec K1 Ey') as K2. cbn beta in K2.
    apply andb_true_iff in K2. destruct K2 as [_ K2]. apply numb_spec in Hd.
    rewrite Hd, (lfb_not Hl) in K2. destruct (blankb c0) eqn:E; [apply blankb_spec in E; contradiction|]. cbn [negb orb] in K2.
    apply orb_true_iff in K2. destruct K2 as [K2|K2]; [right; apply sw_spec, K2|left].
    apply andb_true_iff in K2. destruct K2 as [K2 K3]. apply andb_true_iff in K2. destruct K2 as [K2 K4]. apply Nat.ltb_lt in K4.
    assert (V : v = firstn (length p) v ++ nth (length p) v LF :: skipn (S (length p)) v).
    { rewrite <- (firstn_skipn (length p) v) at 1. f_equal. clear -K4. generalize dependent (length p). induction v as [|a v IH]; intros n L; [cbn in L; lia|].
      destruct n; [reflexivity|]. cbn in *. apply IH. lia. }
    exists (firstn (length p) v), (nth (length p) v LF), (skipn (S (length p)) v). split; [exact V|]. split; [apply numb_spec, K2|].
    split; [rewrite firstn_length; lia|]. unfold nonlb in K3. apply negb_true_iff in K3. intros [E'|E']; [apply lfb_spec in E'; congruence|].
    apply Hcy. rewrite Ey. apply in_or_app. right. fold v. rewrite V, E'. apply in_or_app. right. left. reflexivity.
Qed.

Definition itemsb (s : bytes) : bool :=
  cuts s (fun x y => negb (lbb x) || cuts y (fun p z => match z with c :: _ => negb (lfb c) || negb (bulb p || numb false p) | [] => true end)).
Lemma itemsb_spec s : ~ In CR s -> itemsb s = true -> no_empty_items s.
Proof.
  intros Hc H x p c r Es Hx Hp Hl. unfold itemsb in H. pose proof (cuts_spec H Es) as K. cbn beta in K.
  assert (Hcx : ~ In CR x /\ ~ In CR (p ++ c :: r)) by (rewrite Es, in_app_iff in Hc; tauto). destruct Hcx as [Hcx Hcy].
  rewrite (proj1 (lbb_spec Hcx) Hx) in K. cbn [negb orb] in K. pose proof (cuts_spec K eq_refl) as K1. cbn beta match in K1.
  destruct Hl as [-> | ->]; [|apply Hcy, in_elt].
  assert (bulb p || numb false p = true) by (apply orb_true_iff; destruct Hp as [Hp|Hp]; [left; apply bulb_spec, Hp|right; apply numb_spec, Hp]).
  rewrite H0 in K1. discriminate.
Qed.
Definition quotesb (s : bytes) : bool := cuts s (fun x y => match y with c :: _ => negb (c == ">"%char) || negb (lbb x) | [] => true end).
Lemma quotesb_spec s : ~ In CR s -> quotesb s = true -> no_quote_lines s.
Proof.
  intros Hc H x y Es Hx. unfold quotesb in H. pose proof (cuts_spec H Es) as K. cbn beta match in K.
  assert (Hcx : ~ In CR x) by (rewrite Es, in_app_iff in Hc; tauto).
  rewrite (proj1 (lbb_spec Hcx) Hx) in K. discriminate.
Qed.

(* ---------- the texts of the quotes ---------- *)
Fixpoint span (f : ascii -> bool) (s : bytes) : bytes * bytes :=
  match s with
  | [] => ([], [])
  | c :: r => if f c then let (a, b) := span f r in (c :: a, b) else ([], s)
  end.
Fixpoint qrest (fuel : nat) (p : bytes) (ls : list bytes) (rest : bytes) : list (list bytes * bytes) :=
  match fuel with
  | 0 => []
  | S f =>
      (ls, rest) :: match rest with
                    | c :: r => if lfb c && starts_with r p then let (l, rest') := span nonlb (skipn (length p) r) in qrest f p (ls ++ [l]) rest' else []
                    | [] => []
                    end
  end.
Definition qscan (p y0 : bytes) : list (list bytes * bytes) :=
  let (n, y1) := match y0 with c :: r => if lfb c then ([c], r) else ([], y0) | [] => ([], []) end in
  let (l, rest) := span nonlb y1 in qrest (S (length rest)) p [n ++ l] rest.
Definition quotes_of (s : bytes) : list bytes :=
  flat_map (fun n =>
    if lbb (firstn n s) then
      match skipn n s with
      | c :: r => if c == ">"%char then let (b, y0) := span blankb r in map (fun x => flat_map (fun l => l ++ [LF]) (fst x)) (qscan (c :: b) y0) else []
      | [] => []
      end
    else []) (seq 0 (S (length s))).
Fixpoint insideb (fuel : nat) (s : bytes) : bool :=
  match fuel with
  | 0 => false
  | S f => itemsb s && keptb s && forallb (insideb f) (quotes_of s)
  end.

Definition stops (f : ascii -> bool) (z : bytes) : Prop := z = [] \/ exists c r, z = c :: r /\ f c = false.
Lemma span_spec f l z : forallb f l = true -> stops f z -> span f (l ++ z) = (l, z).
Proof.
  intros H Hz. induction l as [|c l IH]; cbn [app span].
  - destruct Hz as [->|(c & r & -> & Hc)]; [reflexivity|]. cbn. rewrite Hc. reflexivity.
  - cbn in H. apply andb_true_iff in H. destruct H as [-> H]. rewrite (IH H). reflexivity.
Qed.
Lemma nonlb_spec l : Forall (fun c => ~ newline_byte c) l -> forallb nonlb l = true.
Proof. intro H. apply forallb_forall. intros c Hc. rewrite Forall_forall in H. unfold nonlb. rewrite (lfb_not (H c Hc)). reflexivity. Qed.
Lemma sw_app (p z : bytes) : starts_with (p ++ z) p = true.
Proof. induction p as [|c p IH]; [destruct z; reflexivity|]. cbn. rewrite IH, andb_true_r. apply eqb_true. reflexivity. Qed.
Lemma skipn_pre (p z : bytes) : skipn (length p) (p ++ z) = z.
Proof. rewrite skipn_app, skipn_all, Nat.sub_diag. reflexivity. Qed.
Lemma qrest_next p ls l z : forallb nonlb l = true -> stops nonlb z ->
  forall f acc rest, length rest < f -> In (ls, LF :: p ++ l ++ z) (qrest f p acc rest) -> In (ls ++ [l], z) (qrest f p acc rest).
Proof.
  intros Hl Hz. induction f as [|f IH]; intros acc rest Hf H; [lia|]. cbn [qrest] in *.
  destruct H as [H|H].
  - injection H as -> ->. right. change (lfb LF) with true. rewrite sw_app. cbn [andb]. rewrite skipn_pre, (span_spec Hl Hz).
    destruct f as [|f]; [cbn in Hf; lia|]. left. reflexivity.
  - right. destruct rest as [|c r]; [destruct H|]. destruct (lfb c && starts_with r p) eqn:E; [|destruct H].
    apply andb_true_iff in E. destruct E as [_ E]. destruct (sw_spec E) as (r' & ->). rewrite skipn_pre in *.
    destruct (span nonlb r') as [l' rest'] eqn:Es. apply IH; [|exact H].
    assert (length rest' <= length r').
    { clear -Es. revert l' rest' Es. induction r' as [|d r' IHr]; intros l' rest' Es; cbn in Es; [injection Es as <- <-; auto|].
      destruct (nonlb d); [|injection Es as <- <-; auto]. destruct (span nonlb r') as [u v]. injection Es as <- <-. specialize (IHr _ _ eq_refl). cbn. lia. }
    cbn in Hf. rewrite app_length in Hf. lia.
Qed.
Lemma nl_stops z : (z = [] \/ exists c r, z = c :: r /\ newline_byte c) -> ~ In CR z -> stops nonlb z.
Proof.
  intros [->|(c & r & -> & Hc)] Hn; [left; reflexivity|right]. exists c, r. split; [reflexivity|]. unfold nonlb. destruct Hc as [-> | ->]; [reflexivity|].
  destruct Hn. left. reflexivity.
Qed.
Lemma quoted_scan p b ls u : p = ">"%char :: b -> Forall blank b -> quoted p ls u -> forall z, ~ In CR (u ++ z) ->
  (z = [] \/ exists c r, z = c :: r /\ newline_byte c) ->
  exists y0, u ++ z = p ++ y0 /\ stops blankb y0 /\ In (ls, z) (qscan p y0).
Proof.
  intros Hp Hb. induction 1 as [n l c r Hn Hl E Hc|ls u d l H IH Hd Hl]; intros z Hcr Hz.
  - exists (n ++ l ++ z). split; [rewrite <- !app_assoc; reflexivity|]. split.
    { right. exists c, (r ++ z). split; [rewrite app_assoc, E; reflexivity|]. destruct (blankb c) eqn:Eb; [|reflexivity]. apply blankb_spec in Eb. contradiction. }
    assert (Sz : stops nonlb z) by (apply nl_stops; [exact Hz|intro K; apply Hcr, in_or_app; right; exact K]).
    unfold qscan. assert (Em : match n ++ l ++ z with c0 :: r0 => if lfb c0 then ([c0], r0) else ([], n ++ l ++ z) | [] => ([], []) end = (n, l ++ z)).
    { destruct Hn as [->|(d & -> & Hd)].
      - cbn [app] in *. subst l. cbn [app]. inversion Hl as [|? ? K]; subst. rewrite (lfb_not K). reflexivity.
      - cbn [app]. assert (d = LF). { destruct Hd as [Hd|Hd]; [exact Hd|]. exfalso. apply Hcr. rewrite Hd, !in_app_iff. left. right. left. left. reflexivity. }
        subst d. reflexivity. }
    rewrite Em, (span_spec (nonlb_spec Hl) Sz). left. reflexivity.
  - assert (d = LF). { destruct Hd as [Hd'|Hd']; [exact Hd'|]. exfalso. apply Hcr. rewrite Hd', !in_app_iff. left. right. left. reflexivity. }
    subst d. rewrite <- app_assoc in Hcr. assert (Hcz : ~ In CR z).
    { intro K. apply Hcr. apply in_or_app. right. apply in_or_app. right. exact K. }
    destruct (IH ((LF :: p ++ l) ++ z) Hcr) as (y0 & E1 & E2 & E3); [right; exists LF, ((p ++ l) ++ z); split; [reflexivity|left; reflexivity]|].
    exists y0. split; [rewrite <- app_assoc; exact E1|]. split; [exact E2|]. unfold qscan in *.
    destruct (match y0 with c :: r => if lfb c then ([c], r) else ([], y0) | [] => ([], []) end) as [n y1]. destruct (span nonlb y1) as [l1 rest].
    apply (@qrest_next p ls l z (nonlb_spec Hl)); [apply nl_stops; [exact Hz|exact Hcz]|lia|]. cbn [app] in E3. rewrite <- app_assoc in E3. exact E3.
Qed.
Lemma quotes_of_spec s t : ~ In CR s -> quote_text s t -> In t (quotes_of s) /\ ~ In CR t.
Proof.
  intros Hc (w & u & z & x & p & b & ls & Es & Hw & Hz & Hp & Hb & Hu & Hx & ->).
  assert (x = LF).
  { destruct Hx as ([Hx|Hx] & [K|(K & _)]); try assumption. subst x. contradiction. }
  subst x. assert (Hcu : ~ In CR (u ++ z)) by (intro K; apply Hc; rewrite Es; apply in_or_app; auto).
  destruct (quoted_scan Hp Hb Hu Hcu Hz) as (y0 & E1 & E2 & E3). split.
  - unfold quotes_of. apply in_flat_map. exists (length w). split; [apply in_seq; rewrite Es, app_length; lia|].
    rewrite Es. rewrite firstn_app, Nat.sub_diag, firstn_all, skipn_pre. cbn [firstn]. rewrite app_nil_r.
    assert (Hcw : ~ In CR w) by (intro K; apply Hc; rewrite Es; apply in_or_app; auto). rewrite (proj1 (lbb_spec Hcw) Hw), E1, Hp. cbn [app].
    change (">"%char == ">"%char) with true. cbv iota. rewrite (span_spec (proj2 (blanks_spec b) Hb) E2). rewrite Hp in E3.
    apply in_map_iff. exists (ls, z). split; [reflexivity|exact E3].
  - assert (I : forall c, In c (concat ls) -> In c u).
    { clear -Hu. induction Hu as [n l c r Hn Hl E Hc|ls u d l H IH Hd Hl]; intros x Hx.
      - cbn in Hx. rewrite app_nil_r in Hx. apply in_or_app. auto.
      - rewrite concat_app in Hx. cbn in Hx. rewrite app_nil_r in Hx. apply in_app_or in Hx. apply in_or_app. destruct Hx as [Hx|Hx]; [auto|right; right; apply in_or_app; auto]. }
    intro K. apply in_flat_map in K. destruct K as (l & Hl & K). apply in_app_or in K. destruct K as [K|[K|[]]]; [|discriminate].
    apply Hcu, in_or_app. left. apply I, in_concat. eauto.
Qed.
Lemma insideb_spec s fuel : ~ In CR s -> insideb fuel s = true -> forall t, inside s t -> no_empty_items t /\ lists_kept t.
Proof.
  intros Hc H t Ht. assert (G : ~ In CR t /\ exists f, insideb f t = true).
  { induction Ht as [|t q Ht (IH1 & f & IH2) Hq]; [eauto|]. destruct (quotes_of_spec IH1 Hq) as [Q1 Q2]. split; [exact Q2|].
    destruct f as [|f]; [discriminate|]. cbn [insideb] in IH2. apply andb_true_iff in IH2. destruct IH2 as [_ IH2]. rewrite forallb_forall in IH2. exists f. apply IH2, Q1. }
  destruct G as (G1 & [|f] & G2); [discriminate|]. cbn [insideb] in G2. apply andb_true_iff in G2. destruct G2 as [G2 _]. apply andb_true_iff in G2. destruct G2 as [G2 G3].
  split; [apply itemsb_spec|apply keptb_spec]; assumption.
Qed.
