(* The block parser has no undefined behaviour on documents without lists. *)
From Verif Require Import Base Utils UtilsProofs Toctree Content InlineSpec InlineProofs BlockSpec BlockProofs BlockTerm.
#[local] Arguments B : simpl never.

Definition lok (s : bytes) : Prop := no_trailing_backslash s /\ no_list_lines s /\ no_nul s.
Definition nl_end (y : bytes) : Prop := y = [] \/ exists c r, y = c :: r /\ newline_byte c.

Lemma nl_facts c : newline_byte c ->
  (c == "*"%char) = false /\ (c == "+"%char) = false /\ (c == "-"%char) = false /\ is_digit c = false /\
  (c == "."%char) = false /\ (c == ">"%char) = false /\ (c == SP) = false /\ (c == TAB) = false /\ c <> BSL.
Proof. intros [-> | ->]; repeat split; discriminate. Qed.
Lemma digits_cut n y : newline_byte n -> forall x, digits_dot (x ++ n :: y) = digits_dot x.
Proof.
  intros Hn. induction x as [|c x IH]; cbn [app digits_dot].
  - destruct (nl_facts Hn) as (_ & _ & _ & -> & -> & _). reflexivity.
  - rewrite IH. reflexivity.
Qed.
Lemma list_like_nl n y : newline_byte n -> list_like (unquoted (n :: y)) = false.
Proof.
  intro Hn. destruct (nl_facts Hn) as (E1 & E2 & E3 & E4 & E5 & E6 & E7 & E8 & _).
  cbn [unquoted]. rewrite E6, E7, E8. cbn [orb list_like]. rewrite E1, E2, E3, E4. reflexivity.
Qed.
Lemma list_like_cut n y x : newline_byte n -> list_like (unquoted (x ++ n :: y)) = list_like (unquoted x).
Proof.
  intro Hn. induction x as [|c x IH]; [exact (list_like_nl y Hn)|].
  cbn [app unquoted]. destruct ((c == ">"%char) || (c == SP) || (c == TAB)); [exact IH|].
  cbn [list_like]. destruct (c == "*"%char) eqn:E1.
  - destruct x as [|d x]; [|reflexivity]. cbn [app].
    destruct Hn as [-> | ->]; reflexivity.
  - destruct ((c == "+"%char) || (c == "-"%char)) eqn:E2.
    + destruct x as [|d x]; [|reflexivity]. cbn [app].
      destruct (nl_facts Hn) as (_ & N2 & N3 & _).
      apply orb_true_iff in E2. rewrite !eqb_true in E2. destruct E2 as [-> | ->]; rewrite ?N2, ?N3; reflexivity.
    + rewrite (digits_cut _ Hn). reflexivity.
Qed.
Lemma list_like_end y x : nl_end y -> list_like (unquoted (x ++ y)) = list_like (unquoted x).
Proof. intros [->|(c & r & -> & Hc)]; [rewrite app_nil_r; reflexivity|apply list_like_cut, Hc]. Qed.

(* a piece of a document *)
Lemma lok_piece s x m y : lok s -> s = x ++ m ++ y -> nl_end y -> list_like (unquoted m) = false -> lok m.
Proof.
  intros (H1 & H2 & H3) E Hy Hm. split; [|split].
  - intros a b Em. destruct (H1 (x ++ a) (b ++ y)) as (c & r & Ec & Hc).
    { rewrite E, Em, <- !app_assoc. reflexivity. }
    destruct b as [|d b]; [|eauto]. 2:{ injection Ec as <- _. eauto. }
    cbn [app] in Ec. destruct Hy as [->|(c' & r' & -> & Hc')]; [discriminate|].
    injection Ec as <- _. contradiction.
  - intros a b Em [->|Hb]; [cbn in Em; subst b; exact Hm|].
    rewrite <- (list_like_end b Hy). apply (H2 (x ++ a)).
    + rewrite E, Em, <- !app_assoc. reflexivity.
    + right. destruct Hb as (x' & c & -> & Hc). exists (x ++ x'), c. rewrite app_assoc. auto.
  - rewrite E in H3. apply no_nul_app in H3. destruct H3 as [_ H3]. apply no_nul_app in H3. apply H3.
Qed.

(* lines put together *)
Lemma lok_nil : lok [].
Proof.
  split; [|split].
  - intros [|? ?] y E; discriminate.
  - intros x y E _. symmetry in E. apply app_eq_nil in E. destruct E as [_ ->]. reflexivity.
  - apply no_nul_nil.
Qed.
Lemma lok_join e x z : Forall newline_byte e -> e <> [] -> lok x -> lok z -> lok (x ++ e ++ z).
Proof.
  intros He Hne (X1 & X2 & X3) (Z1 & Z2 & Z3).
  assert (Ee : exists n e', e = n :: e' /\ newline_byte n).
  { destruct e as [|n e']; [congruence|]. inversion He. eauto. }
  destruct Ee as (n & e' & Ee & Hn).
  split; [|split].
  - intros a b E. apply app_eq_app in E. destruct E as (l & [(E1 & E2)|(E1 & E2)]).
    + (* x = a ++ l *)
      destruct l as [|d l].
      * cbn [app] in E2. subst e. cbn [app] in E2. injection E2 as <- _.
        destruct (nl_facts Hn) as (_ & _ & _ & _ & _ & _ & _ & _ & K). congruence.
      * cbn [app] in E2. injection E2 as <- ->. destruct (X1 a l E1) as (c & r & -> & Hc). cbn [app]. eauto.
    + (* a = x ++ l *)
      apply app_eq_app in E2. destruct E2 as (l2 & [(E3 & E4)|(E3 & E4)]).
      * destruct l2 as [|d l2].
        -- cbn [app] in E4. subst z. exact (Z1 [] b eq_refl).
        -- cbn [app] in E4. injection E4 as <- ->. exfalso.
           rewrite E3 in He. apply Forall_app in He. destruct He as [_ He]. inversion He as [|? ? K].
           destruct (nl_facts K) as (_ & _ & _ & _ & _ & _ & _ & _ & K'). congruence.
      * destruct (Z1 l2 b E4) as (c & r & -> & Hc). eauto.
  - intros a b E Ha. apply app_eq_app in E. destruct E as (l & [(E1 & E2)|(E1 & E2)]).
    + rewrite E2, Ee. cbn [app]. rewrite (list_like_cut _ _ Hn). apply (X2 a l E1 Ha).
    + apply app_eq_app in E2. destruct E2 as (l2 & [(E3 & E4)|(E3 & E4)]).
      * rewrite E4. destruct l2 as [|d l2].
        -- apply (Z2 [] z eq_refl). left. reflexivity.
        -- cbn [app]. apply list_like_nl. rewrite E3 in He. apply Forall_app in He. destruct He as [_ He].
           inversion He; assumption.
      * apply (Z2 l2 b E4). destruct Ha as [Ea|(x' & c & Ea & Hc)].
        -- rewrite E1, E3 in Ea. apply app_eq_nil in Ea. destruct Ea as [_ Ea].
           apply app_eq_nil in Ea. left. apply Ea.
        -- destruct (list_last_inv l2) as [->|(q & d & ->)]; [left; reflexivity|].
           right. exists q, d. split; [reflexivity|].
           rewrite E1, E3 in Ea. rewrite !app_assoc in Ea. apply app_inj_tail in Ea. destruct Ea as [_ <-]. exact Hc.
  - apply no_nul_app. split; [exact X3|]. apply no_nul_app. split; [|exact Z3].
    intro K. rewrite Forall_forall in He. exact (nl_no_nul (He _ K) eq_refl).
Qed.
Lemma lok_lines e l : Forall newline_byte e -> e <> [] -> Forall lok l -> lok (lines_text e l).
Proof.
  intros He Hne H. induction H as [|x l Hx Hl IH]; [exact lok_nil|].
  unfold lines_text in *. cbn [flat_map]. rewrite <- app_assoc. apply lok_join; auto.
Qed.

(* the texts given to the inline parser *)
Lemma lok_even s : lok s -> odd_tail s = false.
Proof.
  intros (H & _). destruct (list_last_inv s) as [->|(r & c & ->)]; [reflexivity|].
  rewrite odd_tail_snoc. destruct (c == BSL) eqn:E; [|reflexivity]. apply eqb_true in E. subst c.
  destruct (H r [] eq_refl) as (c & r' & K & _). discriminate.
Qed.

Definition good (s : bytes) (p : nat) : Prop :=
  p = 0 \/ length s <= p \/ exists c, nth_error s p = Some c /\ newline_byte c.
Lemma good_skipn s p : good s p -> p <> 0 -> nl_end (skipn p s).
Proof.
  intros [->|[H|(c & Hc & Hn)]] Hp; [congruence|left; apply skipn_all2, H|].
  right. exists c, (skipn (p + 1) s). split; [exact (skipn_at Hc)|exact Hn].
Qed.
Lemma dup_piece s a p : good s p -> a <= length s -> dup s a p = [] \/
  exists x y, s = x ++ dup s a p ++ y /\ nl_end y /\ length x = a.
Proof.
  intros Hg La. unfold dup. destruct (Nat.leb a p) eqn:E.
  - apply Nat.leb_le in E. destruct (Nat.eq_dec p 0) as [->|Hp].
    + left. replace a with 0 by lia. reflexivity.
    + right. exists (firstn a s), (skipn p s). split; [|split].
      * rewrite <- (firstn_skipn a s) at 1. f_equal.
        rewrite <- (firstn_skipn (p - a) (skipn a s)) at 1. f_equal.
        rewrite skipn_add. f_equal. lia.
      * apply good_skipn; assumption.
      * apply firstn_length_le, La.
  - right. exists (firstn a s), []. rewrite app_nil_r, firstn_skipn. split; [reflexivity|].
    split; [left; reflexivity|apply firstn_length_le, La].
Qed.
Lemma inline_dup s a p : lok s -> good s p -> a <= length s -> inline (dup s a p) <> UB.
Proof.
  intros HL Hg La. assert (Hn : no_nul (dup s a p)) by (apply no_nul_dup, HL).
  pose proof (inline_ok Hn) as K. intro E. rewrite E in K. apply K. apply even_wsafe.
  destruct (dup_piece Hg La) as [->|(x & y & Es & Hy & _)]; [reflexivity|].
  destruct (list_last_inv (dup s a p)) as [->|(r & c & Er)]; [reflexivity|].
  rewrite Er, odd_tail_snoc. destruct (c == BSL) eqn:Ec; [|reflexivity]. apply eqb_true in Ec. subst c.
  destruct HL as (H1 & _). destruct (H1 (x ++ r) y) as (c & r' & -> & Hc).
  { rewrite Es, Er, <- !app_assoc. reflexivity. }
  destruct Hy as [?|(c' & r2 & Ey & Hc')]; [discriminate|]. injection Ey as <- _. contradiction.
Qed.

(* ------------------------------------------------------------------ *)
Definition qbyte (c : ascii) : Prop := c = ">"%char \/ c = SP \/ c = TAB.
Lemma unquoted_app q r : Forall qbyte q -> unquoted (q ++ r) = unquoted r.
Proof.
  intro H. induction H as [|c q Hc Hq IH]; [reflexivity|]. cbn [app unquoted].
  destruct Hc as [->|[->| ->]]; exact IH.
Qed.
Definition pok (p : bytes) : Prop :=
  exists q tail, p = q ++ tail /\ Forall qbyte q /\ (tail = [] \/ exists n, tail = [n] /\ newline_byte n).

Definition lstart (s : bytes) (i : nat) : Prop := line_break (firstn i s).
Lemma firstn_snoc (s : bytes) i c : nth_error s i = Some c -> firstn (i + 1) s = firstn i s ++ [c].
Proof.
  intro Ec. replace (firstn (i + 1) s) with (sub s 0 (i + 1)) by (unfold sub; rewrite Nat.sub_0_r; reflexivity).
  rewrite (@sub_snoc s 0 i c (Nat.le_0_l _) Ec). unfold sub. rewrite Nat.sub_0_r. reflexivity.
Qed.
Lemma lstart_nl s i c : nth_error s i = Some c -> is_nl c = true -> lstart s (i + 1).
Proof.
  intros Ec Hc. right. exists (firstn i s), c. split; [exact (firstn_snoc Ec)|]. apply is_nl_iff, Hc.
Qed.
Lemma lstart_list s i : lok s -> lstart s i -> list_like (unquoted (skipn i s)) = false.
Proof. intros (_ & H & _) L. apply (H (firstn i s)); [symmetry; apply firstn_skipn|exact L]. Qed.

Lemma starts_with_app t p : starts_with t p = true -> t = p ++ skipn (length p) t.
Proof.
  revert t. induction p as [|a p IH]; intros t H; [reflexivity|]. destruct t as [|b t]; [discriminate|].
  cbn [starts_with] in H. apply andb_true_iff in H. destruct H as [H1 H2]. apply eqb_true in H1. subst b.
  cbn [length skipn app]. f_equal. exact (IH _ H2).
Qed.

Lemma quoted_line s p a e : lok s -> good s e -> a <= length s -> lstart s a -> pok p ->
  starts_with (dup s a e) p = true -> lok (skipn (length p) (dup s a e)).
Proof.
  intros HL Hg La Hs Hp Sw. apply starts_with_app in Sw.
  destruct (dup_piece Hg La) as [E|(x & y & Es & Hy & Lx)].
  - rewrite E, skipn_nil. exact lok_nil.
  - set (t := dup s a e) in *. set (r := skipn (length p) t) in *.
    apply (@lok_piece s (x ++ p) r y HL); [rewrite Es, Sw, <- !app_assoc; reflexivity|exact Hy|].
    assert (Ex : x = firstn a s).
    { rewrite Es. rewrite <- Lx, firstn_app, Nat.sub_diag. cbn [firstn]. rewrite app_nil_r, firstn_all. reflexivity. }
    destruct Hp as (q & tail & -> & Hq & [->|(n & -> & Hn)]).
    + rewrite <- (unquoted_app r Hq), <- (list_like_end (q ++ r) Hy).
      rewrite app_nil_r in Sw. rewrite <- Sw. destruct HL as (_ & H & _). apply (H x); [exact Es|].
      rewrite Ex. exact Hs.
    + rewrite <- (list_like_end r Hy). destruct HL as (_ & H & _). apply (H (x ++ q ++ [n])).
      * rewrite Es at 1. rewrite Sw, <- !app_assoc. reflexivity.
      * right. exists (x ++ q), n. rewrite app_assoc. auto.
Qed.

Definition sstate (s : bytes) (cur : nat) (b : bvars) : Prop :=
  let len := length s in
  match b_state b with
  | BStart => b_lines b = [] /\ (lstart s cur \/ len <= cur)
  | BListOrRule => b_lines b = [] /\ cur = b_start b + 1 /\ lstart s (b_start b) /\
      nth_error s (b_start b) = Some (b_d b) /\ In (b_d b) (B "*+-")
  | BOl => b_lines b = [] /\ lstart s (b_start b) /\ b_start b < cur /\
      Forall (fun c => is_digit c = true) (sub s (b_start b) cur)
  | BQuote => b_lines b = [] /\ b_start2 b = b_start b /\ lstart s (b_start b) /\ b_start b < cur /\
      Forall qbyte (sub s (b_start b) cur)
  | BQuoteStart => (exists p, b_prefix b = Some p /\ pok p) /\ lstart s (b_start2 b) /\ Forall lok (b_lines b)
  | BQuoteEnd => (exists p, b_prefix b = Some p /\ pok p) /\ (lstart s cur \/ len <= cur) /\ Forall lok (b_lines b)
  | BCodeStart | BCodeEnd => b_prefix b <> None
  | BUlStart | BUlEnd | BOlSpace | BOlStart | BOlEnd => False
  | _ => b_lines b = []
  end.

Definition S2 (s : bytes) (cur : nat) (b : bvars) : Prop :=
  good s (b_real b) /\ good s (b_end b) /\ Forall newline_byte (b_le b) /\ b_le b <> [] /\ b_lines2 b = L2 [] /\
  b_start b <= cur /\ b_start2 b <= cur /\ cur <= length s /\ sstate s cur b.

Section Safe.
Variables (s : bytes) (len : nat) (rec : bytes -> bytes -> res bytes) (o : bopts).
Hypothesis Hlen : len = length s.
Hypothesis Hok : lok s.
Hypothesis Hrec : forall t e, lok t -> Forall newline_byte e -> e <> [] -> rec t e <> UB.

Lemma good_end cur c b : cur < len -> nth_error s cur = Some c -> is_nl c || Nat.eqb cur (len - 1) = true ->
  good s (b_real b) -> good s (line_end len cur c b).
Proof.
  intros L Ec Eol Hr. unfold line_end. destruct (Nat.eqb cur (len - 1)) eqn:El; cbn [andb].
  - destruct (is_nl c) eqn:En; cbn [negb].
    + destruct (Nat.eqb (b_real b) 0); [|exact Hr]. right. right. exists c. split; [exact Ec|]. apply is_nl_iff, En.
    + right. left. lia.
  - rewrite orb_false_r in Eol. destruct (Nat.eqb (b_real b) 0); [|exact Hr].
    right. right. exists c. split; [exact Ec|]. apply is_nl_iff, Eol.
Qed.

Definition outS (r : res (nat * bvars)) : Prop :=
  match r with Ok (cur', b') => S2 s cur' b' | UB => False | OutOfFuel => True end.

Lemma after_eol cur c : cur < len -> nth_error s cur = Some c -> is_nl c || Nat.eqb cur (len - 1) = true ->
  lstart s (cur + 1) \/ length s <= cur + 1.
Proof.
  intros L Ec E. apply orb_true_iff in E. destruct E as [E|E].
  - left. exact (lstart_nl Ec E).
  - right. apply Nat.eqb_eq in E. lia.
Qed.

Lemma bstep_S cur0 cur c b : cur < len -> nth_error s cur = Some c ->
  (cur = cur0 \/ (cur = cur0 + 1 /\ is_nl c = true /\ exists n, nth_error s cur0 = Some n /\ is_nl n = true)) ->
  good s (b_real b) -> good s (b_end b) -> Forall newline_byte (b_le b) -> b_le b <> [] -> b_lines2 b = L2 [] ->
  b_start b <= cur0 -> b_start2 b <= cur0 -> sstate s cur0 b ->
  outS (bstep rec o s len cur c b).
Proof.
  intros L Ec Hcur Hr He Hle Hle0 H2 H3 H4 HS. unfold bstep. set (last := Nat.eqb cur (len - 1)).
  pose proof (after_eol L Ec) as AE. fold last in AE.
  pose proof (fun b E => @good_end cur c b L Ec E) as GE. fold last in GE.
  assert (Hcn : is_nl c = false -> cur = cur0) by (intro K; destruct Hcur as [?|(_ & K' & _)]; [assumption|congruence]).
  assert (Hc0 : cur0 <= cur) by (destruct Hcur as [->|(-> & _)]; lia).
  assert (MK : forall cur' b', good s (b_real b') -> good s (b_end b') -> Forall newline_byte (b_le b') -> b_le b' <> [] ->
    b_lines2 b' = L2 [] -> b_start b' <= cur' -> b_start2 b' <= cur' -> cur' <= length s -> sstate s cur' b' ->
    outS (Ok (cur', b'))) by (intros; unfold outS, S2; tauto).
  assert (PE : forall b' : bvars, good s (b_real b') -> good s (b_end b') -> b_le b' = b_le b -> b_lines2 b' = L2 [] ->
    b_lines b' = [] -> b_start b' <= cur -> b_start2 b' <= cur -> outS (para_end o s cur c last b')).
  { intros b' P1 P2 P3 P4 P5 P6 P7. unfold para_end. destruct (is_nl c || last) eqn:Eol.
    - pose proof (@inline_dup s (b_start b') (b_end b') Hok P2 ltac:(lia)) as K.
      destruct (inline _); cbn [rbind]; [|congruence|exact I].
      apply MK; destruct (o_desc o), (b_desc b'); bcbn; rewrite ?P3; auto; try lia; split; auto.
    - apply MK; bcbn; rewrite ?P3; auto; try lia; unfold sstate; bcbn; auto. }
  assert (HT : forall b' : bvars, good s (b_real b') -> good s (b_end b') -> b_le b' = b_le b -> b_lines2 b' = L2 [] ->
    b_lines b' = [] -> b_start b' <= cur -> b_start2 b' <= cur -> b_state b' = BHeaderTitle \/ b_state b' = BHeaderTitleStart ->
    outS (header_title o s len cur c last b')).
  { intros b' P1 P2 P3 P4 P5 P6 P7 P8. unfold header_title. destruct (is_nl c || last) eqn:Eol.
    - pose proof (@inline_dup s (b_start b') (line_end len cur c b') Hok (GE b' eq_refl P1) ltac:(lia)) as K.
      bcbn. destruct (o_fh o), (b_fh b'); bcbn; (destruct (inline _); cbn [rbind]; [|congruence|exact I]);
      apply MK; destruct (o_hdrs o); bcbn; rewrite ?P3; auto; try lia; split; auto.
    - apply MK; rewrite ?P3; auto; try lia. unfold sstate. destruct P8 as [-> | ->]; auto. }
  unfold sstate in HS. destruct (b_state b) eqn:St.
  - (* start *)
    destruct HS as [HS1 HS2]. destruct (is_nl c || last) eqn:Eol.
    { apply MK; auto; try lia. unfold sstate. rewrite St. auto. }
    assert (cur = cur0) by (apply Hcn; apply orb_false_iff in Eol; apply Eol). subst cur0.
    assert (HS3 : lstart s cur) by (destruct HS2; [assumption|lia]).
    assert (Sb : sub s cur (cur + 1) = [c]).
    { rewrite (sub_snoc (le_n _) Ec). unfold sub. rewrite Nat.sub_diag. reflexivity. }
    apply MK; repeat match goal with |- context [if ?e then _ else _] => let E := fresh "E" in destruct e eqn:E end;
      bcbn; auto; try (clear - L Hlen H3 H4 Hc0; lia); unfold sstate; bcbn; auto.
    + repeat split; auto. apply orb_true_iff in E1. destruct E1 as [E1|E1].
      * apply orb_true_iff in E1. rewrite !eqb_true in E1. destruct E1 as [-> | ->]; [left|right; left]; reflexivity.
      * apply eqb_true in E1. subst c. right; right; left. reflexivity.
    + repeat split; auto; [clear - L Hlen H3 H4 Hc0; lia|]. rewrite Sb. constructor; auto.
    + repeat split; auto; [clear - L Hlen H3 H4 Hc0; lia|]. rewrite Sb. apply eqb_true in E5. subst c. constructor; [left; reflexivity|constructor].
  - (* excerpt *)
    apply MK; repeat match goal with |- context [if ?e then _ else _] => destruct e end;
      bcbn; auto; try lia; unfold sstate; bcbn; rewrite ?St; auto.
  - apply MK; repeat match goal with |- context [if ?e then _ else _] => let E := fresh "E" in destruct e eqn:E end;
      bcbn; auto; try lia; unfold sstate; bcbn; rewrite ?St; auto.
    split; [auto|]. apply AE. apply andb_true_iff in E. destruct E as [_ ->]. reflexivity.
  - apply MK; repeat match goal with |- context [if ?e then _ else _] => destruct e end;
      bcbn; auto; try lia; unfold sstate; bcbn; rewrite ?St; auto.
  - destruct (is_sp c).
    { apply MK; auto; try lia. unfold sstate. rewrite St. auto. }
    destruct (negb (is_nl c)).
    { apply MK; bcbn; auto; try lia; unfold sstate; bcbn; auto. }
    apply HT; bcbn; auto. lia.
  - apply HT; auto; lia.
  - (* html *)
    destruct last eqn:El.
    + unfold html_end. rewrite orb_true_r. bcbn. apply MK; bcbn; auto; try lia.
      * apply GE; auto. apply orb_true_r.
      * unfold sstate. bcbn. split; auto. apply AE. apply orb_true_r.
    + rewrite orb_false_r in *. destruct (is_nl c) eqn:En; apply MK; bcbn; auto; try lia; unfold sstate; bcbn; rewrite ?St; auto.
  - unfold html_end. destruct (is_nl c || last) eqn:Eol; apply MK; bcbn; auto; try lia; unfold sstate; bcbn; auto.
  - (* quote *)
    destruct HS as (Q1 & Q2 & Q3 & Q4 & Q5). destruct (is_sp c) eqn:Es.
    + assert (En : is_nl c = false).
      { unfold is_sp in Es. apply orb_true_iff in Es. rewrite !eqb_true in Es. destruct Es as [-> | ->]; reflexivity. }
      assert (cur = cur0) by auto. subst cur0.
      apply MK; auto; try lia. unfold sstate. rewrite St. repeat split; auto; [lia|].
      rewrite (sub_snoc (Nat.lt_le_incl _ _ Q4) Ec). apply Forall_app. split; [exact Q5|]. constructor; [|constructor].
      unfold is_sp in Es. apply orb_true_iff in Es. rewrite !eqb_true in Es. unfold qbyte. tauto.
    + apply MK; bcbn; auto; try lia. unfold sstate. bcbn. rewrite Q1, Q2. split; [|auto].
      exists (dup s (b_start b) cur). split; [reflexivity|]. rewrite dup_sub by lia.
      destruct Hcur as [->|(-> & _ & n & En & Hn)].
      * exists (sub s (b_start b) cur0), []. rewrite app_nil_r. auto.
      * exists (sub s (b_start b) cur0), [n]. split; [apply sub_snoc; [lia|exact En]|]. split; [exact Q5|].
        right. exists n. split; [reflexivity|apply is_nl_iff, Hn].
  - (* quote start *)
    destruct HS as ((p & Hp & Hpok) & Q2 & Q3). destruct (is_nl c || last) eqn:Eol.
    2:{ apply MK; auto; try lia. unfold sstate. rewrite St. eauto. }
    rewrite Hp. bcbn. pose proof (GE b eq_refl Hr) as G.
    set (t := dup s (b_start2 b) (line_end len cur c b)).
    destruct (starts_with t p) eqn:Sw.
    + assert (Q4 : Forall lok (b_lines b ++ [skipn (length p) t])).
      { apply Forall_app. split; [exact Q3|]. constructor; [|constructor].
        apply quoted_line; auto. lia. }
      destruct last eqn:El.
      * unfold quote_end. rewrite orb_true_r. bcbn.
        pose proof (@Hrec (lines_text (b_le b) (b_lines b ++ [skipn (length p) t])) (b_le b)
                     (lok_lines Hle Hle0 Q4) Hle Hle0) as K.
        destruct (rec _ _); cbn [rbind]; [|congruence|exact I].
        apply MK; bcbn; auto; try lia. unfold sstate. bcbn. auto.
      * apply MK; bcbn; auto; try lia. unfold sstate. bcbn. eauto 6.
    + destruct last; apply MK; bcbn; auto; try lia; unfold sstate; bcbn; auto.
  - (* quote end *)
    destruct HS as ((p & Hp & Hpok) & Q2 & Q3). unfold quote_end. destruct (is_nl c || last) eqn:Eol.
    + pose proof (@Hrec _ (b_le b) (lok_lines Hle Hle0 Q3) Hle Hle0) as K.
      destruct (rec _ _); cbn [rbind]; [|congruence|exact I].
      apply MK; bcbn; auto; try lia. unfold sstate. bcbn. auto.
    + assert (cur = cur0) by (apply Hcn; apply orb_false_iff in Eol; apply Eol). subst cur0.
      apply MK; bcbn; auto; try lia. unfold sstate. bcbn. split; [eauto|]. split; [|exact Q3].
      destruct Q2; [assumption|lia].
  - (* code *)
    destruct (is_sp c).
    + apply MK; auto; try lia. unfold sstate. rewrite St. auto.
    + apply MK; bcbn; auto; try lia. unfold sstate. bcbn. discriminate.
  - destruct (is_nl c || last) eqn:Eol.
    2:{ apply MK; auto; try lia. unfold sstate. rewrite St. auto. }
    destruct (b_prefix b) as [pre|] eqn:Ep; [|congruence]. bcbn.
    destruct (starts_with _ pre).
    + destruct last eqn:El.
      * unfold code_end. rewrite orb_true_r. bcbn. apply MK; bcbn; auto; try lia. unfold sstate. bcbn. auto.
      * apply MK; bcbn; auto; try lia. unfold sstate. bcbn. congruence.
    + destruct last; apply MK; bcbn; auto; try lia; unfold sstate; bcbn; auto.
  - unfold code_end. destruct (is_nl c || last) eqn:Eol; apply MK; bcbn; auto; try lia; unfold sstate; bcbn; auto.
  - (* list or rule *)
    destruct HS as (Q1 & Q2 & Q3 & Q4 & Q5).
    pose proof (lstart_list Hok Q3) as NL. rewrite (skipn_at Q4) in NL.
    assert (Ud : unquoted (b_d b :: skipn (b_start b + 1) s) = b_d b :: skipn (b_start b + 1) s).
    { cbn [unquoted]. destruct Q5 as [E|[E|[E|[]]]]; rewrite <- E; reflexivity. }
    rewrite Ud in NL. rewrite <- Q2 in NL. cbn [list_like] in NL.
    assert (NX : exists n, nth_error s cur0 = Some n).
    { destruct (nth_error s cur0) eqn:K; [eauto|]. apply nth_error_None in K. lia. }
    destruct NX as (n & En). rewrite (skipn_at En) in NL.
    destruct (Nat.eqb cur (b_start b + 1) && (c == b_d b)) eqn:E1.
    { apply MK; bcbn; auto; try lia; unfold sstate; bcbn; auto. }
    destruct (b_d b == "*"%char) eqn:Ed.
    + apply orb_false_iff in NL. destruct NL as [NL NL4]. apply orb_false_iff in NL. destruct NL as [NL NL3].
      assert (Nn : is_nl n = false) by (unfold is_nl; rewrite NL3, NL4; reflexivity).
      assert (cur = cur0).
      { destruct Hcur as [?|(_ & _ & n' & En' & Hn')]; [assumption|congruence]. }
      subst cur0. assert (n = c) by congruence. subst n.
      assert (Es : is_sp c = false) by exact NL.
      rewrite Es, H, Nat.eqb_refl. cbn [andb negb]. apply MK; bcbn; auto; try lia; unfold sstate; bcbn; auto.
    + assert (Ep : (b_d b == "+"%char) || (b_d b == "-"%char) = true).
      { destruct Q5 as [E|[E|[E|[]]]]; rewrite <- E in Ed |- *; try reflexivity. discriminate. }
      rewrite Ep in NL. apply negb_false_iff in NL. exfalso. apply eqb_true in NL. subst n.
      assert (Nn : is_nl (b_d b) = false) by (destruct Q5 as [E|[E|[E|[]]]]; rewrite <- E; reflexivity).
      assert (cur = cur0).
      { destruct Hcur as [?|(_ & _ & n' & En' & Hn')]; [assumption|congruence]. }
      subst cur0. assert (c = b_d b) by congruence. subst c. rewrite eqb_refl, H, Nat.eqb_refl in E1. discriminate.
  - destruct (c == b_d b); [destruct last|]; apply MK; bcbn; auto; try lia; unfold sstate; bcbn; auto.
  - repeat match goal with |- context [if ?e then _ else _] => let E := fresh "E" in destruct e eqn:E end;
      apply MK; bcbn; auto; try lia; unfold sstate; bcbn; rewrite ?St; auto.
  - destruct HS.
  - destruct HS.
  - (* digits *)
    destruct HS as (Q1 & Q2 & Q3 & Q4). destruct (is_digit c) eqn:Edg.
    + assert (En : is_nl c = false).
      { destruct (is_nl c) eqn:En; [|reflexivity]. apply is_nl_iff in En. destruct En as [-> | ->]; discriminate. }
      assert (cur = cur0) by auto. subst cur0. apply MK; auto; try lia. unfold sstate. rewrite St. repeat split; auto; [lia|].
      rewrite (sub_snoc (Nat.lt_le_incl _ _ Q3) Ec). apply Forall_app. auto.
    + destruct (c == "."%char) eqn:Ept.
      * exfalso. apply eqb_true in Ept. subst c. assert (cur = cur0) by auto. subst cur0.
        pose proof (lstart_list Hok Q2) as NL.
        assert (Es : skipn (b_start b) s = sub s (b_start b) cur ++ "."%char :: skipn (cur + 1) s).
        { unfold sub. rewrite <- (firstn_skipn (cur - b_start b) (skipn (b_start b) s)) at 1. f_equal.
          rewrite skipn_add. replace (b_start b + (cur - b_start b)) with cur by lia. exact (skipn_at Ec). }
        rewrite Es in NL. assert (Nz : sub s (b_start b) cur <> []).
        { intro K. apply (f_equal (@length ascii)) in K. rewrite sub_length in K by lia. cbn in K. lia. }
        destruct (sub s (b_start b) cur) as [|d r]; [congruence|]. inversion Q4 as [|? ? Qd Qr]; subst.
        assert (U : unquoted ((d :: r) ++ "."%char :: skipn (cur + 1) s) = (d :: r) ++ "."%char :: skipn (cur + 1) s
                 /\ (d == "*"%char) = false /\ (d == "+"%char) = false /\ (d == "-"%char) = false).
        { cbn [app unquoted]. repeat split; destruct d as [[] [] [] [] [] [] [] []]; try discriminate Qd; reflexivity. }
        destruct U as (U & U1 & U2 & U3). rewrite U in NL. cbn [app list_like] in NL. rewrite U1, U2, U3, Qd in NL.
        cbn [orb andb] in NL. clear - NL Qr. induction Qr as [|e r He Hr IH]; cbn [app digits_dot] in NL.
        -- discriminate.
        -- rewrite He in NL. exact (IH NL).
      * destruct last; apply MK; bcbn; auto; try lia; unfold sstate; bcbn; auto.
  - destruct HS.
  - destruct HS.
  - destruct HS.
  - (* paragraph *)
    destruct last eqn:El.
    + rewrite orb_true_r. apply PE; bcbn; auto; try lia.
      apply GE; auto. apply orb_true_r.
    + rewrite orb_false_r in *. destruct (is_nl c) eqn:En; apply MK; bcbn; auto; try lia.
      unfold sstate. rewrite St. auto.
  - apply PE; auto; lia.
Qed.

Lemma iter_S cur b : S2 s cur b -> cur < len ->
  match iter rec o s len cur b with Ok (cur', b') => S2 s cur' b' | UB => False | OutOfFuel => True end.
Proof.
  intros (Hr & He & Hle & Hle0 & H2 & H3 & H4 & H5 & HS) Lc. unfold iter.
  destruct (nth_error s cur) as [c|] eqn:Ec; [|apply nth_error_None in Ec; lia].
  rewrite (crd_at Ec). cbn [rbind].
  destruct (newline_ok b Hlen Ec) as (cu & c1 & b1 & E & Ec1 & Hcu & Hc). rewrite E. cbn [rbind].
  assert (NL : forall e, Forall newline_byte e -> e <> [] -> let b2 := note_le e b in
     good s (b_real b2) /\ good s (b_end b2) /\ Forall newline_byte (b_le b2) /\ b_le b2 <> [] /\
     b_lines2 b2 = L2 [] /\ b_start b2 <= cur /\ b_start2 b2 <= cur /\ sstate s cur b2).
  { intros e E1 E2. cbn zeta. unfold note_le. destruct (b_lef b); bcbn; repeat split; auto. }
  destruct Hc as [(-> & -> & [(Hn & ->)|(Hn & ->)])|(-> & Hn & Hn1 & Hne & ->)].
  - apply (@bstep_S cur); auto.
  - destruct (NL [c]) as (K1 & K2 & K3 & K4 & K5 & K6 & K7 & K8).
    { constructor; [apply is_nl_iff, Hn|constructor]. } { discriminate. }
    apply (@bstep_S cur); auto.
  - destruct (NL [c; c1]) as (K1 & K2 & K3 & K4 & K5 & K6 & K7 & K8).
    { constructor; [apply is_nl_iff, Hn|constructor; [apply is_nl_iff, Hn1|constructor]]. } { discriminate. }
    apply (@bstep_S cur); auto; [lia|eauto 6|].
    bcbn. right. right. exists c. split; [exact Ec|apply is_nl_iff, Hn].
Qed.
End Safe.

Lemma content_safe : forall fuel o s le, lok s ->
  (forall e, le = Some e -> Forall newline_byte e /\ e <> []) -> content_parse fuel o s le <> UB.
Proof.
  induction fuel as [|f IH]; intros o s le Hs Hle; [discriminate|]. cbn [content_parse].
  set (rec := fun t e => _).
  assert (Hrec : forall t e, lok t -> Forall newline_byte e -> e <> [] -> rec t e <> UB).
  { intros t e Ht He Hne. unfold rec. intro K.
    destruct (content_parse f quote_opts t (Some e)) eqn:E; cbn [rbind] in K; try discriminate.
    revert E. apply IH; auto. intros e' Ee. injection Ee as <-. auto. }
  pose proof (@bloop_inv rec o s (length s) (S2 s) False True eq_refl
    (fun cur b H L => iter_S o eq_refl Hs Hrec H L) (2 * length s) 0 (bv0 le)) as K.
  assert (I0 : S2 s 0 (bv0 le)).
  { unfold S2. cbn. assert (HL : Forall newline_byte (b_le (bv0 le)) /\ b_le (bv0 le) <> []).
    { destruct le as [e|]; cbn; [apply Hle; reflexivity|]. split; [constructor; [left; reflexivity|constructor]|discriminate]. }
    repeat split; try (left; reflexivity); try apply HL; try lia; auto. left. left. reflexivity. }
  specialize (K I0 (Nat.le_0_l _)).
  destruct (bloop _ rec o s _ 0 (bv0 le)); try discriminate.
  destruct K. pose proof (need_le (length s) 0 (bv0 le)). lia.
Qed.
