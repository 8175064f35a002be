(* Documents are rendered as they mean. *)
From Verif Require Import Base Utils UtilsProofs Toctree Content InlineSpec InlineProofs InlineFwd BlockSpec BlockProofs BlockTerm BlockLoop DocSpec.
From Verif Require BlockLine.
#[local] Arguments B : simpl never.

Definition reach (rec : bytes -> bytes -> res bytes) (o : bopts) (s : bytes) (cur : nat) (b : bvars) (P : bvars -> Prop) : Prop :=
  BlockLine.L s cur b -> exists b', leads rec o s cur b (Ok b') /\ P b'.

Definition follows (e x : bytes) : Prop :=
  x = [] \/ (exists y, x = e ++ y) \/ (exists c y, x = c :: y /\ is_nl c = false).

Lemma on_line_nl l : on_line l -> Forall (fun c => is_nl c = false) l.
Proof.
  intro H. eapply Forall_impl; [|exact H]. intros c [Hc _]. destruct (is_nl c) eqn:E; [|reflexivity].
  apply is_nl_iff in E. contradiction.
Qed.
Lemma dup_mid s pre t r p : s = pre ++ t ++ r -> p = length pre + length t -> dup s (length pre) p = t.
Proof. intros -> ->. rewrite dup_sub by lia. apply sub_mid. Qed.

Section Fwd.
Variables (rec : bytes -> bytes -> res bytes) (o : bopts) (s e : bytes).
Hypothesis He : ending e.
Notation len := (length s).
Notation reach := (reach rec o s).

Lemma reach_step cur b cur' b' P : cur < len -> iter rec o s len cur b = Ok (cur', b') -> reach cur' b' P -> reach cur b P.
Proof.
  intros L E K Hl. pose proof (@BlockLine.iter_L rec o s len cur b eq_refl Hl L) as Hl'. rewrite E in Hl'.
  destruct (K Hl') as (b2 & H & HP). exists b2. split; [|exact HP]. eapply leads_step; eassumption.
Qed.
Lemma reach_end b (P : bvars -> Prop) : P b -> reach len b P.
Proof. intros H _. exists b. split; [apply leads_end|exact H]. Qed.

Lemma plain_step pre c r b b' P : s = pre ++ c :: r -> is_nl c = false ->
  bstep rec o s len (length pre) c b = Ok (length pre + 1, b') -> reach (length (pre ++ [c])) b' P -> reach (length pre) b P.
Proof.
  intros Es Hn Hb H. assert (Ec : nth_error s (length pre) = Some c) by (rewrite Es; apply nth_mid).
  eapply reach_step; [apply nth_error_Some; congruence|rewrite (iter_plain rec o len b Ec Hn); exact Hb|].
  rewrite app_length in H. exact H.
Qed.

(* what is known about the line ending *)
Definition binv (b : bvars) : Prop :=
  ((b_lef b = true /\ b_le b = e) \/ (b_lef b = false /\ (b_le b = e \/ b_le b = [LF]))) /\ (length e = 1 -> b_real b = 0).
Definition nlst (p : nat) (b : bvars) : bvars :=
  set_real (if Nat.eqb (length e) 1 then 0 else p) (set_lef true (set_le e b)).
Lemma nlst_binv p b : binv (nlst p b).
Proof. split; [left; split; reflexivity|]. unfold nlst. intro H. rewrite H. reflexivity. Qed.

Lemma e_not_nil : e <> [].
Proof. destruct He as [<-|[<-|[<-|[<-|[]]]]]; discriminate. Qed.
Lemma e_cons y : exists c z, e ++ y = c :: z.
Proof. pose proof e_not_nil. destruct e; [contradiction|]. cbn. eauto. Qed.
Lemma e_y y : e ++ y <> [].
Proof. pose proof e_not_nil. destruct e; [contradiction|]. discriminate. Qed.
Lemma app_ne (l y : bytes) : y <> [] -> l ++ y <> [].
Proof. intros H E. apply app_eq_nil in E. tauto. Qed.
Lemma snoc_ne (l : bytes) c : l ++ [c] <> [].
Proof. intro E. apply app_eq_nil in E. destruct E. discriminate. Qed.
Lemma len_app_ne (l y : bytes) : l <> [] -> l ++ y <> [].
Proof. intros H E. apply app_eq_nil in E. tauto. Qed.
Lemma e_newlines : Forall newline_byte e.
Proof.
  destruct He as [<-|[<-|[<-|[<-|[]]]]]; repeat constructor; first [left; reflexivity|right; reflexivity].
Qed.
Lemma app_tail pre x y : s = pre ++ x ++ y -> s = (pre ++ x) ++ y.
Proof. intros ->. rewrite app_assoc. reflexivity. Qed.

Lemma at_last cur (x : bytes) : length s = cur + 1 + length x -> Nat.eqb cur (len - 1) = match x with [] => true | _ => false end.
Proof. intro H. destruct x; [apply Nat.eqb_eq; cbn in H; lia|apply Nat.eqb_neq; cbn in H; lia]. Qed.

Lemma nl_iter pre x b : s = pre ++ e ++ x -> follows e x -> binv b ->
  exists cur' c', is_nl c' = true /\ cur' + 1 = length (pre ++ e) /\
    iter rec o s len (length pre) b = bstep rec o s len cur' c' (nlst (length pre) b) /\
    Nat.eqb cur' (len - 1) = match x with [] => true | _ => false end /\
    (pre <> [] -> forall bb, b_real bb = b_real (nlst (length pre) b) -> line_end len cur' c' bb = length pre).
Proof.
  intros Es Hx [Hl Hr].
  assert (Hlen : len = length pre + length e + length x) by (rewrite Es, !app_length; lia).
  assert (Hpre : pre <> [] -> length pre <> 0) by (destruct pre; [contradiction|discriminate]).
  assert (S1 : forall c, e = [c] -> newline_byte c ->
    exists cur' c', is_nl c' = true /\ cur' + 1 = length (pre ++ e) /\
    iter rec o s len (length pre) b = bstep rec o s len cur' c' (nlst (length pre) b) /\
    Nat.eqb cur' (len - 1) = match x with [] => true | _ => false end /\
    (pre <> [] -> forall bb, b_real bb = b_real (nlst (length pre) b) -> line_end len cur' c' bb = length pre)).
  { intros c Ee Hc. pose proof (proj2 (is_nl_iff c) Hc) as Hn. rewrite Ee in Hlen. cbn [length] in Hlen.
    exists (length pre), c. split; [exact Hn|]. split; [rewrite Ee, app_length; reflexivity|].
    assert (Ec : nth_error s (length pre) = Some c) by (rewrite Es, Ee; apply nth_mid).
    split; [|split].
    - rewrite (iter_nl rec o b Ec Hn).
      + f_equal. unfold nlst, note_le. rewrite Ee in *. cbn [length Nat.eqb] in *. specialize (Hr eq_refl).
        destruct b; cbn in *. subst. destruct Hl as [[-> ->]|[-> _]]; reflexivity.
      + intros d Hd. rewrite Es, Ee in Hd. cbn [app] in Hd.
        rewrite nth_error_app2 in Hd by lia. replace (length pre + 1 - length pre) with 1 in Hd by lia. cbn in Hd.
        destruct Hx as [-> |[(y & ->)|(c' & y & -> & Hc')]].
        * discriminate.
        * rewrite Ee in Hd. cbn in Hd. injection Hd as <-. left. reflexivity.
        * cbn in Hd. injection Hd as <-. right. exact Hc'.
    - apply at_last. lia.
    - intros Hp bb Hbb. unfold line_end. rewrite Hn. cbn [negb]. rewrite andb_false_r, Hbb.
      unfold nlst. rewrite Ee. reflexivity. }
  assert (S2 : forall c d, e = [c; d] -> newline_byte c -> newline_byte d -> c <> d ->
    exists cur' c', is_nl c' = true /\ cur' + 1 = length (pre ++ e) /\
    iter rec o s len (length pre) b = bstep rec o s len cur' c' (nlst (length pre) b) /\
    Nat.eqb cur' (len - 1) = match x with [] => true | _ => false end /\
    (pre <> [] -> forall bb, b_real bb = b_real (nlst (length pre) b) -> line_end len cur' c' bb = length pre)).
  { intros c d Ee Hc Hd Hne. rewrite Ee in Hlen. cbn [length] in Hlen.
    exists (length pre + 1), d. split; [apply is_nl_iff, Hd|]. split; [rewrite Ee, app_length; cbn; lia|].
    assert (Ec : nth_error s (length pre) = Some c) by (rewrite Es, Ee; apply nth_mid).
    assert (Ed : nth_error s (length pre + 1) = Some d).
    { rewrite Es, Ee. cbn [app]. change (pre ++ c :: d :: x) with (pre ++ [c] ++ d :: x). rewrite app_assoc.
      replace (length pre + 1) with (length (pre ++ [c])) by (rewrite app_length; reflexivity). apply nth_mid. }
    split; [|split].
    - rewrite (iter_pair rec o b Ec Ed Hc Hd Hne). f_equal. unfold nlst, note_le. rewrite Ee in *. cbn [length Nat.eqb] in *.
      destruct b; cbn in *. destruct Hl as [[-> ->]|[-> _]]; reflexivity.
    - apply at_last. lia.
    - intros Hp bb Hbb. unfold line_end. rewrite (proj2 (is_nl_iff d) Hd). cbn [negb]. rewrite andb_false_r, Hbb.
      unfold nlst. rewrite Ee. cbn [length Nat.eqb b_real set_real]. rewrite (proj2 (Nat.eqb_neq _ _) (Hpre Hp)). reflexivity. }
  destruct He as [<-|[<-|[<-|[<-|[]]]]].
  - apply (S1 LF); [reflexivity|left; reflexivity].
  - apply (S1 CR); [reflexivity|right; reflexivity].
  - apply (S2 CR LF); [reflexivity|right; reflexivity|left; reflexivity|discriminate].
  - apply (S2 LF CR); [reflexivity|left; reflexivity|right; reflexivity|discriminate].
Qed.

(* a line ending, by what the switch does there *)
Lemma nl_step pre x b b' P : s = pre ++ e ++ x -> follows e x -> binv b ->
  (forall cur' c', is_nl c' = true -> cur' + 1 = length (pre ++ e) ->
     Nat.eqb cur' (len - 1) = match x with [] => true | _ => false end ->
     (pre <> [] -> forall bb, b_real bb = b_real (nlst (length pre) b) -> line_end len cur' c' bb = length pre) ->
     bstep rec o s len cur' c' (nlst (length pre) b) = Ok (length (pre ++ e), b' cur')) ->
  (forall cur', cur' + 1 = length (pre ++ e) -> reach (length (pre ++ e)) (b' cur') P) -> reach (length pre) b P.
Proof.
  intros Es Hx Hb Hs HP. destruct (nl_iter Es Hx Hb) as (cur' & c' & H1 & H2 & H3 & H4 & H5).
  eapply reach_step; [| |exact (HP cur' H2)].
  - rewrite Es, !app_length. pose proof e_not_nil. destruct e; [contradiction|cbn; lia].
  - rewrite H3. apply Hs; assumption.
Qed.

(* ---------- scanning a line ---------- *)
Definition scanning (st : bstate) : bool :=
  match st with BPara | BHeaderTitle | BHtml | BQuoteStart | BCodeStart | BUlStart | BOlStart => true | _ => false end.
Lemma scan l : forall pre y b P, Forall (fun c => is_nl c = false) l -> s = pre ++ l ++ y -> y <> [] ->
  scanning (b_state b) = true -> reach (length (pre ++ l)) b P -> reach (length pre) b P.
Proof.
  induction l as [|c l IH]; intros pre y b P Hl Es Hy Hst H; [rewrite app_nil_r in H; exact H|].
  apply Forall_cons_iff in Hl. destruct Hl as [H2 H3]. eapply plain_step with (b' := b); [exact Es|assumption| |].
  - assert (Hlast : Nat.eqb (length pre) (len - 1) = false).
    { apply Nat.eqb_neq. rewrite Es, !app_length. cbn [length]. destruct y; [contradiction|cbn; lia]. }
    unfold bstep. rewrite Hlast, H2. cbn [orb].
    destruct (b_state b); try discriminate Hst; unfold header_title, list_start; rewrite ?H2; cbn [orb]; try reflexivity.
    destruct (b_prefix b); reflexivity.
  - eapply IH with (y := y); [assumption| |exact Hy|exact Hst|].
    + rewrite Es, <- app_assoc. reflexivity.
    + rewrite <- app_assoc. exact H.
Qed.

(* ---------- what the parser has produced ---------- *)
Definition outs : Type := (bytes * nat * option bytes * option bytes * list header)%type.
Definition out (b : bvars) : outs := (b_rv b, b_exc b, b_fh b, b_desc b, b_hdrs b).
Definition emit (q : outs) (x : element) : outs :=
  let '(rv, exc, fh, desc, hdrs) := q in
  (rv ++ element_html e x,
   match x with ECut => length rv | _ => exc end,
   match x with EHead _ _ t _ _ => if o_fh o then match fh with None => Some (escape t) | Some _ => fh end else fh | _ => fh end,
   match x with EPara ls _ => if o_desc o then match desc with
                                               | None => Some (escape (trim (joined [SP] (map trim ls))))
                                               | Some _ => desc end else desc | _ => desc end,
   match x with EHead n _ _ sl h => if o_hdrs o then hdrs ++ [Header n (Some sl) (Some h)] else hdrs | _ => hdrs end).

Definition rdy (b : bvars) : Prop := b_state b = BStart /\ b_lines b = [] /\ b_lines2 b = L2 [] /\ binv b.

(* the fields that lines keep *)
Definition same (b b' : bvars) : Prop :=
  b_state b' = b_state b /\ b_start b' = b_start b /\ b_level b' = b_level b /\ b_prefix b' = b_prefix b /\
  b_plen b' = b_plen b /\ b_lines b' = b_lines b /\ b_lines2 b' = b_lines2 b /\ out b' = out b.

Lemma follows_char c y : is_nl c = false -> follows e (c :: y).
Proof. intro H. right. right. eauto. Qed.
Lemma follows_e y : follows e (e ++ y).
Proof. right. left. eauto. Qed.

(* ---------- paragraphs and HTML blocks ---------- *)
Definition loose (st endst : bstate) : Prop := (st = BPara /\ endst = BParaEnd) \/ (st = BHtml /\ endst = BHtmlEnd).
Definition inner (st : bstate) (p0 : nat) (q : outs) (b : bvars) : Prop :=
  b_state b = st /\ b_start b = p0 /\ b_lines b = [] /\ b_lines2 b = L2 [] /\ out b = q /\ binv b.

Lemma loose_lines st endst p0 q : loose st endst -> forall ls l pre y b P,
  Forall (fun c => is_nl c = false) l -> Forall text_line ls ->
  s = pre ++ joined e (l :: ls) ++ y -> y <> [] -> (pre <> [] \/ l <> []) -> inner st p0 q b ->
  (forall b', inner st p0 q b' -> reach (length (pre ++ joined e (l :: ls))) b' P) ->
  reach (length pre) b P.
Proof.
  intro Hst. induction ls as [|l2 ls IH]; intros l pre y b P Hl Hls Es Hy Hne Hi K.
  - cbn [joined] in *. eapply scan with (y := y); [exact Hl|exact Es|exact Hy| |apply K, Hi].
     destruct Hi as (-> & _). destruct Hst as [(-> & _)|(-> & _)]; reflexivity.
  - apply Forall_cons_iff in Hls. destruct Hls as [[Hn2 Hl2] H2]. destruct l2 as [|c2 l2]; [contradiction|].
    change (joined e (l :: (c2 :: l2) :: ls)) with (l ++ e ++ joined e ((c2 :: l2) :: ls)) in *.
    apply on_line_nl in Hl2. apply Forall_cons_iff in Hl2. destruct Hl2 as [H1 H3].
    assert (Hj : exists z, joined e ((c2 :: l2) :: ls) = c2 :: z /\ z = joined e (l2 :: ls)).
    { destruct ls; cbn [joined app]; eauto. }
    destruct Hj as (z & Ez & Ez'). rewrite Ez in *.
    eapply scan with (y := e ++ (c2 :: z) ++ y); [exact Hl|rewrite Es, <- !app_assoc; reflexivity| | |].
    { pose proof e_not_nil. destruct e; [contradiction|discriminate]. }
    { destruct Hi as (-> & _). destruct Hst as [(-> & _)|(-> & _)]; reflexivity. }
    assert (E1 : s = (pre ++ l) ++ e ++ (c2 :: z) ++ y) by (rewrite Es, <- !app_assoc; reflexivity).
    pose proof Hi as (I1 & I2 & I3 & I4 & I5 & I6).
    eapply nl_step with (b' := fun _ => set_state endst (set_end (length (pre ++ l)) (nlst (length (pre ++ l)) b)));
      [exact E1|apply follows_char; assumption|exact I6| |].
    { intros cur' c' N1 N2 N3 N4. cbn match in N3.
      assert (Hp : pre ++ l <> []) by (destruct Hne as [Hne|Hne]; intro X; apply app_eq_nil in X; tauto).
      specialize (N4 Hp _ eq_refl). unfold bstep. replace (b_state (nlst _ b)) with st by (symmetry; exact I1).
      rewrite N1, N3, <- N2. cbn [orb].
      destruct Hst as [(-> & ->)|(-> & ->)]; cbn match; rewrite N4; reflexivity. }
    intros cur' _. set (b1 := set_state _ _).
    assert (E2 : s = ((pre ++ l) ++ e) ++ c2 :: z ++ y) by (rewrite E1, <- !app_assoc; reflexivity).
    eapply plain_step with (b' := set_state st b1); [exact E2|assumption| |].
    { assert (Hlast : Nat.eqb (length ((pre ++ l) ++ e)) (len - 1) = false).
      { apply Nat.eqb_neq. rewrite E2, !app_length. cbn [length]. rewrite !app_length.
        destruct y; [contradiction|cbn; lia]. }
      unfold bstep. rewrite Hlast, H1. cbn [orb].
      destruct Hst as [(-> & ->)|(-> & ->)]; cbn [b_state set_state b1 para_end html_end].
      - change (b_state b1) with BParaEnd. cbn match. unfold para_end. rewrite H1. reflexivity.
      - change (b_state b1) with BHtmlEnd. cbn match. unfold html_end. rewrite H1. reflexivity. }
    eapply (IH l2 (((pre ++ l) ++ e) ++ [c2]) y); [assumption|assumption| |exact Hy| | |].
    + rewrite E2, Ez', <- !app_assoc. reflexivity.
    + left. intro X. apply app_eq_nil in X. destruct X. discriminate.
    + unfold inner. unfold b1. cbn [b_state b_start b_lines b_lines2 set_state set_end nlst set_real set_lef set_le].
      repeat split; auto. apply nlst_binv.
    + intros b' Hb'. rewrite <- Ez'.
      replace ((((pre ++ l) ++ e) ++ [c2]) ++ z) with (pre ++ l ++ e ++ c2 :: z) by (rewrite <- !app_assoc; reflexivity).
      apply K, Hb'.
Qed.

Definition follows2 (g x : bytes) : Prop := closed e g x /\ follows e x.
Lemma out_nlst p b : out (nlst p b) = out b.
Proof. reflexivity. Qed.

Definition para_out (ls : list bytes) (h : bytes) (q : outs) : outs := emit q (EPara ls h).
Lemma para_fin np b c last cur ls h q : is_nl c || last = true -> b_start b <= b_end b ->
  dup s (b_start b) (b_end b) = joined e ls -> inline (joined e ls) = Ok h ->
  fix_description (joined e ls) = escape (trim (joined [SP] (map trim ls))) ->
  b_lines b = [] -> b_lines2 b = L2 [] -> binv b -> b_le b = e -> out b = q ->
  cur + 1 = np ->
  exists b', para_end o s cur c last b = Ok (np, b') /\ rdy b' /\ out b' = emit q (EPara ls h).
Proof.
  intros Hn _ Hd Hi Hf L1 L2' Hb Hle Hq Hc. unfold para_end. rewrite Hn, Hd, Hf, Hi, Hc. cbn [orb rbind].
  destruct (o_desc o) eqn:Eo; [destruct (b_desc b) eqn:Ed|]; eexists; (split; [reflexivity|]);
    unfold rdy, binv, out, emit in *; bcbn; rewrite ?Hle, ?Eo in *; subst q; rewrite ?Ed; (split; [repeat split; tauto|reflexivity]).
Qed.
Lemma html_fin np b c last cur ls q : is_nl c || last = true ->
  dup s (b_start b) (b_end b) = joined e ls ->
  b_lines b = [] -> b_lines2 b = L2 [] -> binv b -> b_le b = e -> out b = q ->
  cur + 1 = np ->
  exists b', html_end s cur c last b = Ok (np, b') /\ rdy b' /\ out b' = emit q (EHtml ls).
Proof.
  intros Hn Hd L1 L2' Hb Hle Hq Hc. unfold html_end. rewrite Hn, Hd, Hc. cbn [orb].
  eexists; (split; [reflexivity|]);
    unfold rdy, binv, out, emit in *; bcbn; rewrite ?Hle in *; subst q; (split; [repeat split; tauto|reflexivity]).
Qed.

(* the switch, at a line ending *)
Lemma nl_go pre x b P : s = pre ++ e ++ x -> follows e x -> binv b ->
  (forall cur' c', is_nl c' = true -> cur' + 1 = length (pre ++ e) ->
     Nat.eqb cur' (len - 1) = match x with [] => true | _ => false end ->
     (pre <> [] -> forall bb, b_real bb = b_real (nlst (length pre) b) -> line_end len cur' c' bb = length pre) ->
     exists b', bstep rec o s len cur' c' (nlst (length pre) b) = Ok (length (pre ++ e), b') /\ reach (length (pre ++ e)) b' P) ->
  reach (length pre) b P.
Proof.
  intros Es Hx Hb Hs. destruct (nl_iter Es Hx Hb) as (cur' & c' & H1 & H2 & H3 & H4 & H5).
  destruct (Hs cur' c' H1 H2 H4 H5) as (b' & Hb' & Hr).
  eapply reach_step; [| |exact Hr].
  - rewrite Es, !app_length. pose proof e_not_nil. destruct e; [contradiction|cbn; lia].
  - rewrite H3. exact Hb'.
Qed.

(* the end of a paragraph or an HTML block *)
Lemma loose_close st endst p0 q el pre t g x b P :
  (forall np cur c last b1, is_nl c || last = true -> b_start b1 = p0 -> b_end b1 = length pre -> b_lines b1 = [] -> b_lines2 b1 = L2 [] ->
     binv b1 -> b_le b1 = e -> out b1 = q -> cur + 1 = np ->
     exists b', match st with BPara => para_end o s cur c last b1 | _ => html_end s cur c last b1 end
                = Ok (np, b') /\ rdy b' /\ out b' = emit q el) ->
  loose st endst -> s = pre ++ e ++ g ++ x -> pre <> [] -> closed e g x -> follows e x -> t = p0 -> inner st p0 q b ->
  (forall b', rdy b' -> out b' = emit q el -> reach (length (pre ++ e ++ g)) b' P) ->
  reach (length pre) b P.
Proof.
  intros Hf Hst Es Hp Hc Hx _ (I1 & I2 & I3 & I4 & I5 & I6) K. destruct Hc as [-> |[-> ->]].
  - eapply nl_go; [exact Es|apply follows_e|exact I6|]. intros cur' c' N1 N2 N3 N4.
    assert (N3' : Nat.eqb cur' (len - 1) = false) by (rewrite N3; pose proof e_not_nil; destruct e; [contradiction|reflexivity]).
    specialize (N4 Hp _ eq_refl). set (b1 := set_state endst (set_end (length pre) (nlst (length pre) b))).
    exists b1. split.
    { unfold bstep. replace (b_state (nlst _ b)) with st by (symmetry; exact I1).
      rewrite N1, N3', <- N2. cbn [orb]. destruct Hst as [(-> & ->)|(-> & ->)]; cbn match; rewrite N4; reflexivity. }
    eapply nl_go with (pre := pre ++ e) (x := x); [rewrite Es, <- app_assoc; reflexivity|exact Hx| |].
    { apply (nlst_binv (length pre) b). }
    intros cur2 c2 M1 M2 M3 M4.
    destruct (Hf (length ((pre ++ e) ++ e)) cur2 c2 (Nat.eqb cur2 (len - 1)) (nlst (length (pre ++ e)) b1)) as (b' & E & R & Q1); auto.
    { rewrite M1. reflexivity. }
    { apply nlst_binv. }
    exists b'. split; [|rewrite app_assoc in K; apply K; assumption].
    rewrite <- E. unfold bstep. destruct Hst as [(-> & ->)|(-> & ->)]; reflexivity.
  - eapply nl_go with (x := []); [exact Es|exact Hx|exact I6|]. intros cur' c' N1 N2 N3 N4.
    specialize (N4 Hp _ eq_refl). set (b1 := set_state endst (set_end (length pre) (nlst (length pre) b))).
    destruct (Hf (length (pre ++ e)) cur' c' true b1) as (b' & E & R & Q1); auto.
    { apply orb_true_r. }
    { apply (nlst_binv (length pre) b). }
    exists b'. split; [|rewrite app_nil_r in K; apply K; assumption].
    rewrite <- E. unfold bstep. replace (b_state (nlst _ b)) with st by (symmetry; exact I1).
    rewrite N1, N3. cbn [orb]. destruct Hst as [(-> & ->)|(-> & ->)]; cbn match; rewrite N4; reflexivity.
Qed.

Lemma ended_joined ls : ls <> [] -> ended e ls = joined e ls ++ e.
Proof.
  induction ls as [|l [|l2 ls] IH]; intro H; [contradiction|cbn; rewrite app_nil_r; reflexivity|].
  change (ended e (l :: l2 :: ls)) with ((l ++ e) ++ ended e (l2 :: ls)).
  change (joined e (l :: l2 :: ls)) with (l ++ e ++ joined e (l2 :: ls)). rewrite IH by discriminate.
  rewrite <- !app_assoc. reflexivity.
Qed.
Lemma joined_cons c l ls : joined e ((c :: l) :: ls) = c :: joined e (l :: ls).
Proof. destruct ls; reflexivity. Qed.

Lemma start_step pre c y b : s = pre ++ c :: y -> y <> [] -> b_state b = BStart -> is_nl c = false ->
  bstep rec o s len (length pre) c b = Ok (length pre + 1,
    let b := set_start (length pre) b in
            if (c == "."%char) && o_exc o then set_eend (length (b_rv b)) (set_state BExcerpt b)
            else if c == "#"%char then set_level 1 (set_state BHeader b)
            else if (c == "*"%char) || (c == "+"%char) || (c == "-"%char) then
              set_start2 (length pre) (set_d c (set_state BListOrRule b))
            else if is_digit c then set_start2 (length pre) (set_state BOl b)
            else if is_sp c then set_start2 (length pre) (set_state BCode b)
            else if c == "<"%char then set_state BHtml b
            else if c == ">"%char then set_start2 (length pre) (set_state BQuote b)
            else set_state BPara b).
Proof.
  intros Es Hy Hst Hn. assert (Hlast : Nat.eqb (length pre) (len - 1) = false).
  { apply Nat.eqb_neq. rewrite Es, !app_length. cbn [length]. destruct y; [contradiction|cbn; lia]. }
  unfold bstep. rewrite Hst, Hn, Hlast. reflexivity.
Qed.

Lemma html_block r ls g x pre b P : Forall text_line (("<"%char :: r) :: ls) ->
  closed e g x -> follows e x -> s = pre ++ (ended e (("<"%char :: r) :: ls) ++ g) ++ x -> rdy b ->
  (forall b', rdy b' -> out b' = emit (out b) (EHtml (("<"%char :: r) :: ls)) ->
     reach (length (pre ++ (ended e (("<"%char :: r) :: ls) ++ g))) b' P) ->
  reach (length pre) b P.
Proof.
  intros Hls Hc Hx Es Hr K.
  apply Forall_cons_iff in Hls. destruct Hls as [[_ Hl] Hls]. apply on_line_nl in Hl. apply Forall_cons_iff in Hl. destruct Hl as [Hcn Hl].
  rewrite ended_joined in * by discriminate. rewrite joined_cons in *.
  set (j := joined e (r :: ls)) in *. set (c := "<"%char) in *.
  assert (E0 : s = pre ++ c :: j ++ e ++ g ++ x) by (rewrite Es, <- !app_assoc; reflexivity).
  pose proof Hr as (R1 & R2 & R3 & R4 & R5).
  eapply plain_step with (b' := set_state BHtml (set_start (length pre) b)); [exact E0|exact Hcn| |].
  { rewrite (@start_step pre c (j ++ e ++ g ++ x) b E0); auto.
    pose proof e_not_nil. destruct j, e; discriminate || contradiction. }
  eapply (@loose_lines BHtml BHtmlEnd (length pre) (out b)) with (y := e ++ g ++ x); [right; auto|exact Hl|exact Hls| |apply e_y| | |].
  - rewrite E0, <- app_assoc. reflexivity.
  - left. intro X. apply app_eq_nil in X. destruct X. discriminate.
  - repeat split; auto.
  - fold j. intros b' Hb'.
    eapply (@loose_close BHtml BHtmlEnd (length pre) (out b) (EHtml ((c :: r) :: ls))) with (t := length pre);
      [|right; auto| | |exact Hc|exact Hx|reflexivity|exact Hb'|].
    + intros np cur c1 last b1 Q1 Q2 Q3 Q4 Q5 Q6 Q7 Q8 Q9.
      apply html_fin; auto; rewrite ?joined_cons; fold j; auto.
      rewrite Q2, Q3. eapply dup_mid with (r := e ++ g ++ x); [rewrite E0; reflexivity|].
      rewrite !app_length. cbn [length]. lia.
    + rewrite E0, <- !app_assoc. reflexivity.
    + intro X. apply app_eq_nil in X. destruct X as [X _]. apply app_eq_nil in X. destruct X. discriminate.
    + intros b2 Hb2 Ho2. specialize (K b2 Hb2 Ho2).
      replace (((pre ++ [c]) ++ j) ++ e ++ g) with (pre ++ ((c :: j) ++ e) ++ g) by (rewrite <- !app_assoc; reflexivity). exact K.
Qed.

(* ---------- headers ---------- *)
Lemma not_last2 pre c y : s = pre ++ c :: y -> y <> [] -> Nat.eqb (length pre) (len - 1) = false.
Proof. intros Es Hy. apply Nat.eqb_neq. rewrite Es, app_length. cbn [length]. destruct y; [contradiction|cbn; lia]. Qed.
Lemma blank_sp c : blank c -> is_sp c = true.
Proof. intros [-> | ->]; reflexivity. Qed.
Lemma blank_nl c : blank c -> is_nl c = false.
Proof. intros [-> | ->]; reflexivity. Qed.
Lemma nblank_sp c : ~ blank c -> is_sp c = false.
Proof. intro H. unfold is_sp, blank in *. apply orb_false_iff. split; apply eqb_neq; intros ->; tauto. Qed.

Lemma hashes n : forall pre y b P, s = pre ++ repeat "#"%char n ++ y -> b_state b = BHeader ->
  reach (length (pre ++ repeat "#"%char n)) (set_level (b_level b + n) b) P -> reach (length pre) b P.
Proof.
  induction n as [|n IH]; intros pre y b P Es Hst H.
  - cbn [repeat] in H. rewrite app_nil_r, Nat.add_0_r in H. destruct b; exact H.
  - cbn [repeat app] in *. eapply plain_step with (b' := set_level (b_level b + 1) b); [exact Es|reflexivity| |].
    + unfold bstep. rewrite Hst. reflexivity.
    + eapply IH with (y := y); [rewrite Es, <- app_assoc; reflexivity|exact Hst|].
      rewrite <- app_assoc. cbn [app]. bcbn. replace (b_level b + 1 + n) with (b_level b + S n) by lia. exact H.
Qed.
(* states in which blanks are skipped *)
Definition skipping (st : bstate) : bool :=
  match st with BHeaderTitleStart | BQuote | BCode | BOlSpace => true | _ => false end.
Lemma skip_blanks w : forall pre y b P, s = pre ++ w ++ y -> Forall blank w -> skipping (b_state b) = true ->
  reach (length (pre ++ w)) b P -> reach (length pre) b P.
Proof.
  induction w as [|c w IH]; intros pre y b P Es Hw Hst H; [rewrite app_nil_r in H; exact H|].
  apply Forall_cons_iff in Hw. destruct Hw as [Hc Hw].
  eapply plain_step with (b' := b); [exact Es|apply blank_nl, Hc| |].
  - unfold bstep. destruct (b_state b); try discriminate Hst; rewrite (blank_sp Hc); reflexivity.
  - eapply IH; [rewrite Es, <- app_assoc; reflexivity|exact Hw|exact Hst|]. rewrite <- app_assoc. exact H.
Qed.

Lemma head_block n w t d sl h x pre b P : 1 <= n -> Forall blank w -> w <> [] -> visible t ->
  inline t = Ok h -> dec (N.of_nat n) = d -> slugify t = sl -> htmlentities t = escape t -> follows e x ->
  s = pre ++ (repeat "#"%char n ++ w ++ t ++ e) ++ x -> rdy b ->
  (forall b', rdy b' -> out b' = emit (out b) (EHead n d t sl h) ->
     reach (length (pre ++ (repeat "#"%char n ++ w ++ t ++ e))) b' P) ->
  reach (length pre) b P.
Proof.
  intros Hn Hw Hwn (Ht & c & r & Et & Hcb) Hin Hd Hsl Hesc Hx Es Hr K.
  destruct n as [|n]; [lia|]. destruct w as [|w0 w]; [contradiction|]. apply Forall_cons_iff in Hw. destruct Hw as [Hw0 Hw].
  apply on_line_nl in Ht. rewrite Et in Ht. apply Forall_cons_iff in Ht. destruct Ht as [Hcn Hrn].
  cbn [repeat] in Es. set (hs := repeat "#"%char n) in *.
  assert (E0 : s = pre ++ "#"%char :: hs ++ w0 :: w ++ c :: r ++ e ++ x) by (rewrite Es, Et, <- !app_assoc; reflexivity).
  pose proof Hr as (R1 & R2 & R3 & R4 & R5).
  set (b1 := set_level 1 (set_state BHeader (set_start (length pre) b))).
  eapply plain_step with (b' := b1); [exact E0|reflexivity| |].
  { rewrite (@start_step pre "#"%char _ b E0); auto. apply app_ne. discriminate. }
  eapply hashes with (n := n); [rewrite E0, <- app_assoc; reflexivity|reflexivity|]. fold hs.
  set (b2 := set_level _ b1). replace (b_level b1 + n) with (S n) in b2 by (unfold b1; bcbn; lia).
  assert (E1 : s = ((pre ++ ["#"%char]) ++ hs) ++ w0 :: w ++ c :: r ++ e ++ x) by (rewrite E0, <- !app_assoc; reflexivity).
  eapply plain_step with (b' := set_state BHeaderTitleStart b2); [exact E1|apply blank_nl, Hw0| |].
  { unfold bstep. change (b_state b2) with BHeader. cbn match.
    assert (X : (w0 == "#"%char) = false) by (destruct Hw0 as [-> | ->]; reflexivity). rewrite X, (blank_sp Hw0). reflexivity. }
  eapply skip_blanks with (w := w) (y := c :: r ++ e ++ x); [rewrite E1, <- !app_assoc; reflexivity|exact Hw|reflexivity|].
  set (p2 := ((((pre ++ ["#"%char]) ++ hs) ++ [w0]) ++ w)).
  assert (E2 : s = p2 ++ c :: r ++ e ++ x) by (unfold p2; rewrite E1, <- !app_assoc; reflexivity).
  set (b3 := set_state BHeaderTitle (set_start (length p2) (set_state BHeaderTitleStart b2))).
  eapply plain_step with (b' := b3); [exact E2|exact Hcn| |].
  { unfold bstep. change (b_state (set_state BHeaderTitleStart b2)) with BHeaderTitleStart. cbn match.
    rewrite (nblank_sp Hcb), Hcn. reflexivity. }
  eapply scan with (l := r) (y := e ++ x); [exact Hrn|rewrite E2, <- app_assoc; reflexivity|apply e_y|reflexivity|].
  set (p3 := (p2 ++ [c]) ++ r).
  assert (E3 : s = p3 ++ e ++ x) by (unfold p3; rewrite E2, <- !app_assoc; reflexivity).
  assert (Hp3 : p3 <> []) by (unfold p3; rewrite <- app_assoc; apply app_ne; discriminate).
  eapply nl_go; [exact E3|exact Hx|split; assumption|]. intros cur' c' N1 N2 N3 N4.
  specialize (N4 Hp3 _ eq_refl).
  assert (Ed : dup s (length p2) (length p3) = t).
  { rewrite Et. apply (@dup_mid s p2 (c :: r) (e ++ x)); [exact E2|]. unfold p3. rewrite !app_length. cbn [length]. lia. }
  set (b4 := nlst (length p3) b3) in *.
  set (fh := if o_fh o then match b_fh b with None => Some (escape t) | Some f => Some f end else b_fh b).
  set (hd := if o_hdrs o then b_hdrs b ++ [Header (S n) (Some sl) (Some h)] else b_hdrs b).
  eexists. split.
  { unfold bstep. change (b_state b4) with BHeaderTitle. cbn match. unfold header_title. rewrite N1. cbn [orb].
    rewrite N4.
    change (b_start (set_end (length p3) b4)) with (length p2). change (b_end (set_end (length p3) b4)) with (length p3).
    rewrite Ed, Hin. cbn [rbind]. rewrite N2. reflexivity. }
  cbv zeta. rewrite Hesc.
  assert (EK : length (p3 ++ e) = length (pre ++ (repeat "#"%char (S n) ++ (w0 :: w) ++ t ++ e))).
  { unfold p3, p2. rewrite Et. fold hs. cbn [repeat]. fold hs. f_equal. rewrite <- !app_assoc. reflexivity. }
  rewrite EK. apply K.
  - destruct (o_fh o), (o_hdrs o), (b_fh b) eqn:Ef; cbn match; 
      change (b_fh (set_end (length p3) b4)) with (b_fh b); rewrite ?Ef;
      unfold rdy; repeat split; auto; try (left; split; reflexivity); apply (nlst_binv (length p3) b3).
  - unfold emit, out, element_html. rewrite Hsl.
    change (b_fh (set_end (length p3) b4)) with (b_fh b).
    destruct (o_fh o), (o_hdrs o), (b_fh b) eqn:Ef; cbn match; rewrite <- Hd;
      unfold toctree_append; unfold b4, b3, b2, b1, nlst; bcbn; rewrite ?Ef; reflexivity.
Qed.

(* ---------- the end of the excerpt ---------- *)
Lemma dots n : forall pre y b P, o_exc o = true -> s = pre ++ repeat "."%char n ++ y -> b_state b = BExcerpt ->
  reach (length (pre ++ repeat "."%char n)) b P -> reach (length pre) b P.
Proof.
  induction n as [|n IH]; intros pre y b P Ho Es Hst H.
  - cbn [repeat] in H. rewrite app_nil_r in H. exact H.
  - cbn [repeat app] in *. eapply plain_step with (b' := b); [exact Es|reflexivity| |].
    + unfold bstep. rewrite Hst, Ho. reflexivity.
    + eapply IH with (y := y); [exact Ho|rewrite Es, <- app_assoc; reflexivity|exact Hst|].
      rewrite <- app_assoc. exact H.
Qed.
Lemma cut_block n x pre b P : o_exc o = true -> follows e x -> s = pre ++ (repeat "."%char (S n) ++ e ++ e) ++ x -> rdy b ->
  (forall b', rdy b' -> out b' = emit (out b) ECut -> reach (length (pre ++ (repeat "."%char (S n) ++ e ++ e))) b' P) ->
  reach (length pre) b P.
Proof.
  intros Ho Hx Es Hr K. cbn [repeat] in *. set (hs := repeat "."%char n) in *.
  assert (E0 : s = pre ++ "."%char :: hs ++ e ++ e ++ x) by (rewrite Es, <- !app_assoc; reflexivity).
  pose proof Hr as (R1 & R2 & R3 & R4 & R5).
  set (b1 := set_eend (length (b_rv b)) (set_state BExcerpt (set_start (length pre) b))).
  eapply plain_step with (b' := b1); [exact E0|reflexivity| |].
  { rewrite (@start_step pre "."%char _ b E0); auto; [|apply app_ne, e_y]. rewrite Ho. reflexivity. }
  eapply dots with (n := n); [exact Ho|rewrite E0, <- app_assoc; reflexivity|reflexivity|]. fold hs.
  set (p1 := (pre ++ ["."%char]) ++ hs).
  assert (E1 : s = p1 ++ e ++ e ++ x) by (unfold p1; rewrite E0, <- !app_assoc; reflexivity).
  eapply nl_go; [exact E1|apply follows_e|split; assumption|]. intros cur' c' N1 N2 N3 N4.
  eexists. split.
  { unfold bstep. change (b_state (nlst (length p1) b1)) with BExcerpt. cbn match. rewrite Ho, N1, N2.
    assert (X : (c' == "."%char) = false) by (apply is_nl_iff in N1; destruct N1 as [-> | ->]; reflexivity).
    rewrite X. reflexivity. }
  eapply nl_go with (pre := p1 ++ e); [rewrite E1, <- app_assoc; reflexivity|exact Hx|apply (nlst_binv (length p1) b1)|].
  intros cur2 c2 M1 M2 M3 M4. eexists. split.
  { unfold bstep. cbn [b_state set_state nlst set_real set_lef set_le]. rewrite Ho, M1, M2. reflexivity. }
  replace ((p1 ++ e) ++ e) with (pre ++ ("."%char :: hs) ++ e ++ e) by (unfold p1; rewrite <- !app_assoc; reflexivity).
  apply K.
  - unfold rdy. bcbn. repeat split; auto. apply nlst_binv.
  - unfold out, emit, element_html. bcbn. rewrite app_nil_r. reflexivity.
Qed.

(* ---------- rules ---------- *)
Lemma rules c n : forall pre y b P, s = pre ++ repeat c n ++ y -> y <> [] -> is_nl c = false -> b_state b = BRule -> b_d b = c ->
  reach (length (pre ++ repeat c n)) b P -> reach (length pre) b P.
Proof.
  induction n as [|n IH]; intros pre y b P Es Hy Hn Hst Hd H.
  - cbn [repeat] in H. rewrite app_nil_r in H. exact H.
  - cbn [repeat app] in *. eapply plain_step with (b' := b); [exact Es|exact Hn| |].
    + unfold bstep. rewrite Hst, Hd, (not_last2 Es) by (apply app_ne, Hy). rewrite eqb_refl. reflexivity.
    + eapply IH with (y := y); [rewrite Es, <- app_assoc; reflexivity|exact Hy|exact Hn|exact Hst|exact Hd|].
      rewrite <- app_assoc. exact H.
Qed.
Lemma rule_block c n x pre b P : In c (B "*+-") -> follows e x -> s = pre ++ (repeat c (3 + n) ++ e) ++ x -> rdy b ->
  (forall b', rdy b' -> out b' = emit (out b) ERule -> reach (length (pre ++ (repeat c (3 + n) ++ e))) b' P) ->
  reach (length pre) b P.
Proof.
  intros Hc Hx Es Hr K. cbn [repeat Nat.add] in *. set (hs := repeat c n) in *.
  assert (Hn : is_nl c = false) by (destruct Hc as [<-|[<-|[<-|[]]]]; reflexivity).
  assert (E0 : s = pre ++ c :: c :: c :: hs ++ e ++ x) by (rewrite Es, <- !app_assoc; reflexivity).
  pose proof Hr as (R1 & R2 & R3 & R4 & R5).
  set (b1 := set_start2 (length pre) (set_d c (set_state BListOrRule (set_start (length pre) b)))).
  eapply plain_step with (b' := b1); [exact E0|exact Hn| |].
  { rewrite (@start_step pre c _ b E0); auto; [|discriminate]. destruct Hc as [<-|[<-|[<-|[]]]]; reflexivity. }
  assert (E1 : s = (pre ++ [c]) ++ c :: c :: hs ++ e ++ x) by (rewrite E0, <- !app_assoc; reflexivity).
  eapply plain_step with (b' := set_state BRuleOrEmph b1); [exact E1|exact Hn| |].
  { unfold bstep. change (b_state b1) with BListOrRule. change (b_start b1) with (length pre). change (b_d b1) with c.
    rewrite eqb_refl, app_length. cbn [length]. rewrite Nat.eqb_refl. reflexivity. }
  assert (E2 : s = ((pre ++ [c]) ++ [c]) ++ c :: hs ++ e ++ x) by (rewrite E0, <- !app_assoc; reflexivity).
  eapply plain_step with (b' := set_state BRule (set_state BRuleOrEmph b1)); [exact E2|exact Hn| |].
  { unfold bstep. cbn [b_state set_state]. change (b_d (set_state BRuleOrEmph b1)) with c.
    rewrite eqb_refl, (not_last2 E2) by apply app_ne, e_y. reflexivity. }
  set (b2 := set_state BRule (set_state BRuleOrEmph b1)).
  eapply rules with (n := n) (c := c) (y := e ++ x); [rewrite E2, <- !app_assoc; reflexivity|apply e_y|exact Hn|reflexivity|reflexivity|]. fold hs.
  set (p1 := (((pre ++ [c]) ++ [c]) ++ [c]) ++ hs).
  assert (E3 : s = p1 ++ e ++ x) by (unfold p1; rewrite E2, <- !app_assoc; reflexivity).
  eapply nl_go; [exact E3|exact Hx|split; assumption|]. intros cur' c' N1 N2 N3 N4.
  eexists. split.
  { unfold bstep. change (b_state (nlst (length p1) b2)) with BRule. cbn match. change (b_d (nlst (length p1) b2)) with c.
    rewrite N1, N2. assert (X : (c' == c) = false).
    { apply eqb_neq. intros ->. congruence. }
    rewrite X. cbn [andb orb]. reflexivity. }
  replace (p1 ++ e) with (pre ++ (c :: c :: c :: hs) ++ e) by (unfold p1; rewrite <- !app_assoc; reflexivity).
  apply K.
  - unfold rdy. bcbn. repeat split; auto. apply nlst_binv.
  - unfold out, emit, element_html. reflexivity.
Qed.

(* ---------- paragraphs ---------- *)
Lemma joined_app p r ls : joined e ((p ++ r) :: ls) = p ++ joined e (r :: ls).
Proof. destruct ls; cbn [joined]; rewrite <- ?app_assoc; reflexivity. Qed.
Lemma digits_run ds : forall pre y b P, Forall (fun c => is_digit c = true) ds -> s = pre ++ ds ++ y -> b_state b = BOl ->
  reach (length (pre ++ ds)) b P -> reach (length pre) b P.
Proof.
  induction ds as [|c ds IH]; intros pre y b P Hd Es Hst H; [rewrite app_nil_r in H; exact H|].
  apply Forall_cons_iff in Hd. destruct Hd as [Hc Hd].
  assert (Hn : is_nl c = false) by (destruct (is_nl c) eqn:X; [apply is_nl_iff in X; destruct X as [-> | ->]; discriminate Hc|reflexivity]).
  eapply plain_step with (b' := b); [exact Es|exact Hn| |].
  - unfold bstep. rewrite Hst, Hc. reflexivity.
  - eapply IH; [exact Hd|rewrite Es, <- app_assoc; reflexivity|exact Hst|]. rewrite <- app_assoc. exact H.
Qed.
(* a paragraph has begun *)
Lemma para_begin l pre z b : para_first (o_exc o) l -> Forall (fun c => is_nl c = false) l -> s = pre ++ l ++ z -> z <> [] -> rdy b ->
  exists p r, l = p ++ r /\ p <> [] /\
  forall P, (forall b', inner BPara (length pre) (out b) b' -> reach (length (pre ++ p)) b' P) -> reach (length pre) b P.
Proof.
  intros Hf Hl Es Hz (R1 & R2 & R3 & R4 & R5).
  destruct Hf as [c r H1 H2 H3 H4|n c r H1 H2|c r H1 H2|d n c r H1 H2|ds c r H1 H2 H3 H4|n c r H1].
  - exists [c], r. split; [reflexivity|]. split; [discriminate|]. intros P K.
    apply Forall_cons_iff in Hl. destruct Hl as [Hcn Hl].
    eapply plain_step with (b' := set_state BPara (set_start (length pre) b)); [exact Es|exact Hcn| |apply K; repeat split; auto].
    rewrite (@start_step pre c (r ++ z) b Es); auto; [|apply app_ne, Hz].
    f_equal. f_equal. cbv zeta.
    assert (X : forall d, In d (B "#*+-<>") -> (c == d) = false) by (intros d Hd; apply eqb_neq; intros ->; contradiction).
    rewrite (X "#"%char), (X "*"%char), (X "+"%char), (X "-"%char), (X "<"%char), (X ">"%char) by (vm_compute; auto 10).
    rewrite H2. cbn [orb]. rewrite (nblank_sp H3).
    destruct (o_exc o); [|rewrite andb_false_r; reflexivity].
    assert (Z : (c == "."%char) = false) by (apply eqb_neq; auto). rewrite Z. reflexivity.
  - set (hs := repeat "#"%char n). exists ("#"%char :: hs ++ [c]), r.
    split; [cbn [repeat app]; rewrite <- app_assoc; reflexivity|]. split; [discriminate|]. intros P K.
    assert (E0 : s = pre ++ "#"%char :: hs ++ c :: r ++ z) by (rewrite Es; cbn [repeat app]; rewrite <- app_assoc; reflexivity).
    assert (Hcn : is_nl c = false) by (rewrite Forall_forall in Hl; apply Hl, in_elt).
    eapply plain_step with (b' := set_level 1 (set_state BHeader (set_start (length pre) b))); [exact E0|reflexivity| |].
    { rewrite (@start_step pre "#"%char _ b E0); auto. apply app_ne. discriminate. }
    eapply hashes with (n := n); [rewrite E0, <- app_assoc; reflexivity|reflexivity|]. fold hs. set (b1 := set_level _ _).
    assert (E1 : s = ((pre ++ ["#"%char]) ++ hs) ++ c :: r ++ z) by (rewrite E0, <- !app_assoc; reflexivity).
    eapply plain_step with (b' := set_state BPara b1); [exact E1|exact Hcn| |].
    { unfold bstep. change (b_state b1) with BHeader. cbn match.
      assert (X : (c == "#"%char) = false) by (apply eqb_neq, H1). rewrite X, (nblank_sp H2). reflexivity. }
    replace (((pre ++ ["#"%char]) ++ hs) ++ [c]) with (pre ++ "#"%char :: hs ++ [c]) by (rewrite <- !app_assoc; reflexivity).
    apply K. repeat split; auto.
  - exists ["*"%char; c], r. split; [reflexivity|]. split; [discriminate|]. intros P K.
    apply Forall_cons_iff in Hl. destruct Hl as [_ Hl]. apply Forall_cons_iff in Hl. destruct Hl as [Hcn Hl].
    set (b1 := set_start2 (length pre) (set_d "*"%char (set_state BListOrRule (set_start (length pre) b)))).
    eapply plain_step with (b' := b1); [exact Es|reflexivity| |].
    { rewrite (@start_step pre "*"%char _ b Es); auto. discriminate. }
    assert (E1 : s = (pre ++ ["*"%char]) ++ c :: r ++ z) by (rewrite Es, <- !app_assoc; reflexivity).
    eapply plain_step with (b' := set_state BPara b1); [exact E1|exact Hcn| |].
    { unfold bstep. change (b_state b1) with BListOrRule. change (b_start b1) with (length pre). change (b_d b1) with "*"%char.
      assert (X : (c == "*"%char) = false) by (apply eqb_neq, H1).
      rewrite X, (nblank_sp H2), app_length. cbn [length]. rewrite Nat.eqb_refl. reflexivity. }
    replace ((pre ++ ["*"%char]) ++ [c]) with (pre ++ ["*"%char; c]) by (rewrite <- !app_assoc; reflexivity).
    apply K. repeat split; auto.
  - set (hs := repeat d n). exists (d :: d :: hs ++ [c]), r.
    split; [cbn [repeat app Nat.add]; rewrite <- app_assoc; reflexivity|]. split; [discriminate|]. intros P K.
    assert (E0 : s = pre ++ d :: d :: hs ++ c :: r ++ z) by (rewrite Es; cbn [repeat app Nat.add]; rewrite <- app_assoc; reflexivity).
    assert (Hcn : is_nl c = false) by (rewrite Forall_forall in Hl; apply Hl, in_elt).
    assert (Hn : is_nl d = false) by (destruct H1 as [<-|[<-|[<-|[]]]]; reflexivity).
    assert (X : (c == d) = false) by (apply eqb_neq, H2).
    set (b1 := set_start2 (length pre) (set_d d (set_state BListOrRule (set_start (length pre) b)))).
    eapply plain_step with (b' := b1); [exact E0|exact Hn| |].
    { rewrite (@start_step pre d _ b E0); auto; [|discriminate]. destruct H1 as [<-|[<-|[<-|[]]]]; reflexivity. }
    assert (E1 : s = (pre ++ [d]) ++ d :: hs ++ c :: r ++ z) by (rewrite E0, <- !app_assoc; reflexivity).
    eapply plain_step with (b' := set_state BRuleOrEmph b1); [exact E1|exact Hn| |].
    { unfold bstep. change (b_state b1) with BListOrRule. change (b_start b1) with (length pre). change (b_d b1) with d.
      rewrite eqb_refl, app_length. cbn [length]. rewrite Nat.eqb_refl. reflexivity. }
    replace (pre ++ d :: d :: hs ++ [c]) with ((((pre ++ [d]) ++ [d]) ++ hs) ++ [c]) in K by (rewrite <- !app_assoc; reflexivity).
    assert (E2 : s = ((pre ++ [d]) ++ [d]) ++ hs ++ c :: r ++ z) by (rewrite E0, <- !app_assoc; reflexivity).
    destruct n as [|n].
    + cbn [repeat] in hs. subst hs. cbn [app] in *. rewrite app_nil_r in K.
      eapply plain_step with (b' := set_state BPara (set_state BRuleOrEmph b1)); [exact E2|exact Hcn| |apply K; repeat split; auto].
      unfold bstep. cbn [b_state set_state]. change (b_d (set_state BRuleOrEmph b1)) with d. rewrite X. reflexivity.
    + cbn [repeat] in hs. set (hs' := repeat d n) in hs. subst hs. cbn [app] in E2.
      eapply plain_step with (b' := set_state BRule (set_state BRuleOrEmph b1)); [exact E2|exact Hn| |].
      { unfold bstep. cbn [b_state set_state]. change (b_d (set_state BRuleOrEmph b1)) with d.
        rewrite eqb_refl, (not_last2 E2) by (apply app_ne; discriminate). reflexivity. }
      set (b2 := set_state BRule (set_state BRuleOrEmph b1)).
      eapply rules with (n := n) (c := d) (y := c :: r ++ z); [rewrite E2, <- !app_assoc; reflexivity|discriminate|exact Hn|reflexivity|reflexivity|]. fold hs'.
      assert (E3 : s = ((((pre ++ [d]) ++ [d]) ++ [d]) ++ hs') ++ c :: r ++ z) by (rewrite E2, <- !app_assoc; reflexivity).
      eapply plain_step with (b' := set_state BPara b2); [exact E3|exact Hcn| |].
      { unfold bstep. change (b_state b2) with BRule. change (b_d b2) with d. rewrite X, Hcn, (not_last2 E3) by (apply app_ne, Hz). reflexivity. }
      replace (((((pre ++ [d]) ++ [d]) ++ [d]) ++ hs') ++ [c]) with ((((pre ++ [d]) ++ [d]) ++ d :: hs') ++ [c]) by (rewrite <- !app_assoc; reflexivity).
      apply K. repeat split; auto.
  - destruct ds as [|d ds]; [contradiction|]. apply Forall_cons_iff in H2. destruct H2 as [Hd H2].
    exists (d :: ds ++ [c]), r. split; [cbn [app]; rewrite <- app_assoc; reflexivity|]. split; [discriminate|]. intros P K.
    assert (E0 : s = pre ++ d :: ds ++ c :: r ++ z) by (rewrite Es; cbn [app]; rewrite <- app_assoc; reflexivity).
    assert (Hcn : is_nl c = false) by (rewrite Forall_forall in Hl; apply Hl, in_elt).
    assert (Hn : is_nl d = false) by (rewrite Forall_forall in Hl; apply Hl; left; reflexivity).
    set (b1 := set_start2 (length pre) (set_state BOl (set_start (length pre) b))).
    eapply plain_step with (b' := b1); [exact E0|exact Hn| |].
    { rewrite (@start_step pre d _ b E0); auto; [|apply app_ne; discriminate]. f_equal. f_equal. cbv zeta.
      assert (X : forall x, is_digit x = false -> (d == x) = false) by (intros x Hx; apply eqb_neq; intros ->; congruence).
      rewrite !X by reflexivity. rewrite Hd. reflexivity. }
    eapply digits_run with (ds := ds); [exact H2|rewrite E0, <- app_assoc; reflexivity|reflexivity|].
    assert (E1 : s = ((pre ++ [d]) ++ ds) ++ c :: r ++ z) by (rewrite E0, <- !app_assoc; reflexivity).
    eapply plain_step with (b' := set_state BPara b1); [exact E1|exact Hcn| |].
    { unfold bstep. change (b_state b1) with BOl. cbn match.
      assert (X : (c == "."%char) = false) by (apply eqb_neq, H4). rewrite H3, X, (not_last2 E1) by (apply app_ne, Hz). reflexivity. }
    replace (((pre ++ [d]) ++ ds) ++ [c]) with (pre ++ d :: ds ++ [c]) by (rewrite <- !app_assoc; reflexivity).
    apply K. repeat split; auto.
  - set (hs := repeat "."%char n).
    assert (Hcn : is_nl c = false) by (rewrite Forall_forall in Hl; apply Hl, in_elt).
    assert (E0 : s = pre ++ "."%char :: hs ++ c :: r ++ z) by (rewrite Es; cbn [repeat app]; rewrite <- app_assoc; reflexivity).
    destruct (o_exc o) eqn:Ho.
    + exists ("."%char :: hs ++ [c]), r. split; [cbn [repeat app]; rewrite <- app_assoc; reflexivity|]. split; [discriminate|]. intros P K.
      set (b1 := set_eend (length (b_rv b)) (set_state BExcerpt (set_start (length pre) b))).
      eapply plain_step with (b' := b1); [exact E0|reflexivity| |].
      { rewrite (@start_step pre "."%char _ b E0); auto; [|apply app_ne; discriminate]. rewrite Ho. reflexivity. }
      eapply dots with (n := n); [exact Ho|rewrite E0, <- app_assoc; reflexivity|reflexivity|]. fold hs.
      assert (E1 : s = ((pre ++ ["."%char]) ++ hs) ++ c :: r ++ z) by (rewrite E0, <- !app_assoc; reflexivity).
      eapply plain_step with (b' := set_eend 0 (set_state BPara b1)); [exact E1|exact Hcn| |].
      { unfold bstep. change (b_state b1) with BExcerpt. cbn match.
        assert (X : (c == "."%char) = false) by (apply eqb_neq, H1). rewrite X, Hcn, Ho. reflexivity. }
      replace (((pre ++ ["."%char]) ++ hs) ++ [c]) with (pre ++ "."%char :: hs ++ [c]) by (rewrite <- !app_assoc; reflexivity).
      apply K. repeat split; auto.
    + exists ["."%char], (hs ++ c :: r). split; [reflexivity|]. split; [discriminate|]. intros P K.
      eapply plain_step with (b' := set_state BPara (set_start (length pre) b)); [exact E0|reflexivity| |apply K; repeat split; auto].
      rewrite (@start_step pre "."%char _ b E0); auto; [|apply app_ne; discriminate]. rewrite Ho. reflexivity.
Qed.

Lemma para_block ls h g x pre b P : ls <> [] -> Forall text_line ls -> para_first (o_exc o) (hd [] ls) ->
  inline (joined e ls) = Ok h -> fix_description (joined e ls) = escape (trim (joined [SP] (map trim ls))) ->
  closed e g x -> follows e x -> s = pre ++ (ended e ls ++ g) ++ x -> rdy b ->
  (forall b', rdy b' -> out b' = emit (out b) (EPara ls h) -> reach (length (pre ++ (ended e ls ++ g))) b' P) ->
  reach (length pre) b P.
Proof.
  intros Hne Hls Hpf Hin Hfd Hc Hx Es Hr K. destruct ls as [|l0 ls]; [contradiction|]. cbn [hd] in Hpf.
  apply Forall_cons_iff in Hls. destruct Hls as [[_ Hl] Hls]. apply on_line_nl in Hl.
  rewrite ended_joined in * by discriminate.
  assert (Ez : exists z, z <> [] /\ joined e (l0 :: ls) ++ e ++ g ++ x = l0 ++ z).
  { destruct ls as [|l1 ls]; cbn [joined]; [exists (e ++ g ++ x); split; [apply e_y|reflexivity]|].
    exists (e ++ joined e (l1 :: ls) ++ e ++ g ++ x). split; [apply e_y|rewrite <- !app_assoc; reflexivity]. }
  destruct Ez as (z & Hz & Ez).
  assert (Ep : s = pre ++ l0 ++ z) by (rewrite Es, <- Ez, <- !app_assoc; reflexivity).
  destruct (para_begin Hpf Hl Ep Hz Hr) as (p & l & El & Hp & Hb). subst l0. apply Forall_app in Hl. destruct Hl as [_ Hl].
  rewrite joined_app in *. set (j := joined e (l :: ls)) in *.
  assert (E0 : s = pre ++ p ++ j ++ e ++ g ++ x) by (rewrite Es, <- !app_assoc; reflexivity).
  apply Hb. intros b0 Hb0.
  eapply (@loose_lines BPara BParaEnd (length pre) (out b)) with (y := e ++ g ++ x); [left; auto|exact Hl|exact Hls| |apply e_y| |exact Hb0|].
  - rewrite E0, <- app_assoc. reflexivity.
  - left. apply app_ne, Hp.
  - fold j. intros b' Hb'.
    eapply (@loose_close BPara BParaEnd (length pre) (out b) (EPara ((p ++ l) :: ls) h)) with (t := length pre);
      [|left; auto| | |exact Hc|exact Hx|reflexivity|exact Hb'|].
    + intros np cur c1 last b1 Q1 Q2 Q3 Q4 Q5 Q6 Q7 Q8 Q9.
      apply para_fin; auto; rewrite ?joined_app; fold j; auto.
      * rewrite Q2, Q3, !app_length. lia.
      * rewrite Q2, Q3. eapply dup_mid with (r := e ++ g ++ x); [rewrite E0, <- app_assoc; reflexivity|].
        rewrite !app_length. lia.
    + rewrite E0, <- !app_assoc. reflexivity.
    + apply len_app_ne, app_ne, Hp.
    + intros b2 Hb2 Ho2. specialize (K b2 Hb2 Ho2).
      replace (((pre ++ p) ++ j) ++ e ++ g) with (pre ++ ((p ++ j) ++ e) ++ g) by (rewrite <- !app_assoc; reflexivity). exact K.
Qed.

(* ---------- code blocks and quotes ---------- *)
Definition strict (st endst : bstate) : Prop := (st = BCodeStart /\ endst = BCodeEnd) \/ (st = BQuoteStart /\ endst = BQuoteEnd).
Definition pinner (st : bstate) (p : bytes) (a : nat) (ls : list bytes) (q : outs) (b : bvars) : Prop :=
  b_state b = st /\ b_prefix b = Some p /\ b_start2 b = a /\ b_lines b = ls /\ b_lines2 b = L2 [] /\ out b = q /\ binv b.

Lemma starts_with_app p l : starts_with (p ++ l) p = true.
Proof. induction p as [|c p IH]; [destruct l; reflexivity|]. cbn. rewrite eqb_refl, IH. reflexivity. Qed.
Lemma skipn_len (p l : bytes) : skipn (length p) (p ++ l) = l.
Proof. rewrite skipn_app, skipn_all, Nat.sub_diag. reflexivity. Qed.

Lemma joined_first a ls : exists z, joined e (a :: ls) = a ++ z.
Proof. destruct ls as [|b ls]; cbn [joined]; [exists []; rewrite app_nil_r; reflexivity|eauto]. Qed.
Lemma strict_lines st endst p q : strict st endst -> p <> [] -> Forall (fun c => is_nl c = false) p ->
  forall ls pre0 l acc b y P,
  Forall on_line ls -> s = pre0 ++ joined e (map (app p) (l :: ls)) ++ y -> y <> [] ->
  pinner st p (length pre0) acc q b ->
  (forall pre1 l1 b1 acc1, pre0 ++ joined e (map (app p) (l :: ls)) = pre1 ++ p ++ l1 -> acc1 ++ [l1] = acc ++ l :: ls ->
     pinner st p (length pre1) acc1 q b1 -> reach (length (pre1 ++ p ++ l1)) b1 P) ->
  reach (length (pre0 ++ p ++ l)) b P.
Proof.
  intros Hst Hpn Hp. induction ls as [|l2 ls IH]; intros pre0 l acc b y P Hls Es Hy Hi K.
  - eapply K; [reflexivity|reflexivity|exact Hi].
  - apply Forall_cons_iff in Hls. destruct Hls as [Hl2 Hls]. apply on_line_nl in Hl2.
    destruct p as [|pc p]; [contradiction|]. apply Forall_cons_iff in Hp as Hp'. destruct Hp' as [Hpc Hp2].
    set (pp := pc :: p) in *. set (pre := pre0 ++ pp ++ l) in *.
    change (joined e (map (app pp) (l :: l2 :: ls))) with ((pp ++ l) ++ e ++ joined e (map (app pp) (l2 :: ls))) in *.
    destruct (joined_first (pp ++ l2) (map (app pp) ls)) as (z & Ez). change ((pp ++ l2) :: map (app pp) ls) with (map (app pp) (l2 :: ls)) in Ez.
    set (J := joined e (map (app pp) (l2 :: ls))) in *.
    assert (E1 : s = pre ++ e ++ pc :: (p ++ l2) ++ z ++ y).
    { rewrite Es, Ez. unfold pre, pp. rewrite <- !app_assoc. reflexivity. }
    assert (Hne : pre <> []) by (unfold pre, pp; apply app_ne; discriminate).
    pose proof Hi as (I1 & I2 & I3 & I4 & I5 & I6 & I7).
    eapply nl_go; [exact E1|apply follows_char, Hpc|exact I7|]. intros cur' c' N1 N2 N3 N4.
    specialize (N4 Hne _ eq_refl). cbn match in N3.
    set (b1 := set_state endst (set_lines (acc ++ [l]) (set_end (length pre) (nlst (length pre) b)))).
    exists b1. split.
    { unfold bstep. replace (b_state (nlst (length pre) b)) with st by (symmetry; exact I1).
      assert (X : dup s (length pre0) (length pre) = pp ++ l) by
        (apply (@dup_mid s pre0 (pp ++ l) (e ++ pc :: (p ++ l2) ++ z ++ y)); [rewrite E1; unfold pre; rewrite <- !app_assoc; reflexivity|unfold pre; rewrite app_length; reflexivity]).
      rewrite N1, N3, N4, <- N2. cbn [orb].
      change (b_prefix (nlst (length pre) b)) with (b_prefix b). rewrite I2.
      change (b_start2 (set_end (length pre) (nlst (length pre) b))) with (b_start2 b). rewrite I3.
      change (b_end (set_end (length pre) (nlst (length pre) b))) with (length pre).
      rewrite X, starts_with_app, skipn_len.
      change (b_lines (set_end (length pre) (nlst (length pre) b))) with (b_lines b). rewrite I4.
      destruct Hst as [(-> & ->)|(-> & ->)]; reflexivity. }
    assert (Hzy : z ++ y <> []) by apply app_ne, Hy.
    assert (E2 : s = (pre ++ e) ++ pc :: (p ++ l2) ++ z ++ y) by (rewrite E1, <- !app_assoc; reflexivity).
    set (b2 := set_start2 (length (pre ++ e)) (set_state st b1)).
    eapply plain_step with (b' := b2); [exact E2|exact Hpc| |].
    { unfold bstep. destruct Hst as [(-> & ->)|(-> & ->)]; cbn [b_state set_state b1].
      - change (b_state b1) with BCodeEnd. cbn match. unfold code_end. rewrite Hpc, (not_last2 E2) by apply app_ne, Hzy. reflexivity.
      - change (b_state b1) with BQuoteEnd. cbn match. unfold quote_end. rewrite Hpc, (not_last2 E2) by apply app_ne, Hzy. reflexivity. }
    eapply scan with (l := p ++ l2) (y := z ++ y).
    { apply Forall_app. split; assumption. }
    { rewrite E2, <- !app_assoc. reflexivity. }
    { exact Hzy. }
    { change (b_state b2) with st. destruct Hst as [(-> & ->)|(-> & ->)]; reflexivity. }
    replace (((pre ++ e) ++ [pc]) ++ p ++ l2) with ((pre ++ e) ++ pp ++ l2) by (rewrite <- !app_assoc; reflexivity).
    eapply (IH (pre ++ e) l2 (acc ++ [l]) b2 y).
    + exact Hls.
    + fold J. rewrite Es. unfold pre. rewrite <- !app_assoc. reflexivity.
    + exact Hy.
    + unfold pinner, b2, b1. repeat split; auto. apply (nlst_binv (length pre) b).
    + intros pre1 l1 b3 acc1 F1 F2 F3. eapply K; [| |exact F3].
      * rewrite <- F1. unfold J, pre. rewrite <- !app_assoc. reflexivity.
      * rewrite F2, <- app_assoc. reflexivity.
Qed.

(* the last line of a code block or quote *)
Lemma strict_close st endst p acc l q el pre0 g x b P : strict st endst -> p <> [] ->
  (forall np cur c last b1, is_nl c || last = true -> b_lines b1 = acc ++ [l] -> b_lines2 b1 = L2 [] -> binv b1 -> b_le b1 = e ->
     out b1 = q -> cur + 1 = np ->
     exists b', match st with BCodeStart => code_end cur c last b1 | _ => quote_end rec cur c last b1 end
                = Ok (np, b') /\ rdy b' /\ out b' = emit q el) ->
  s = (pre0 ++ p ++ l) ++ e ++ g ++ x -> closed e g x -> follows e x -> pinner st p (length pre0) acc q b ->
  (forall b', rdy b' -> out b' = emit q el -> reach (length ((pre0 ++ p ++ l) ++ e ++ g)) b' P) ->
  reach (length (pre0 ++ p ++ l)) b P.
Proof.
  intros Hst Hpn Hf Es Hc Hx (I1 & I2 & I3 & I4 & I5 & I6 & I7) K.
  set (pre := pre0 ++ p ++ l) in *.
  assert (Hne : pre <> []) by (unfold pre; apply app_ne, len_app_ne, Hpn).
  assert (X : dup s (length pre0) (length pre) = p ++ l).
  { apply (@dup_mid s pre0 (p ++ l) (e ++ g ++ x)); [rewrite Es; unfold pre; rewrite <- !app_assoc; reflexivity|unfold pre; rewrite app_length; reflexivity]. }
  set (b1 := set_state endst (set_lines (acc ++ [l]) (set_end (length pre) (nlst (length pre) b)))).
  assert (Step : forall cur' c' last, is_nl c' = true -> Nat.eqb cur' (len - 1) = last ->
    line_end len cur' c' (nlst (length pre) b) = length pre ->
    bstep rec o s len cur' c' (nlst (length pre) b) =
      if last then match st with BCodeStart => code_end cur' c' last b1 | _ => quote_end rec cur' c' last b1 end
      else Ok (cur' + 1, b1)).
  { intros cur' c' last N1 N3 N4. unfold bstep. replace (b_state (nlst (length pre) b)) with st by (symmetry; exact I1).
    rewrite N1, N3, N4. cbn [orb].
    change (b_prefix (nlst (length pre) b)) with (b_prefix b). rewrite I2.
    change (b_start2 (set_end (length pre) (nlst (length pre) b))) with (b_start2 b). rewrite I3.
    change (b_end (set_end (length pre) (nlst (length pre) b))) with (length pre).
    rewrite X, starts_with_app, skipn_len.
    change (b_lines (set_end (length pre) (nlst (length pre) b))) with (b_lines b). rewrite I4.
    destruct Hst as [(-> & ->)|(-> & ->)]; reflexivity. }
  destruct Hc as [-> |[-> ->]].
  - eapply nl_go; [exact Es|apply follows_e|exact I7|]. intros cur' c' N1 N2 N3 N4.
    specialize (N4 Hne _ eq_refl).
    assert (N3' : Nat.eqb cur' (len - 1) = false) by (rewrite N3; pose proof e_not_nil; destruct e; [contradiction|reflexivity]).
    exists b1. split; [rewrite (Step cur' c' false N1 N3' N4), N2; reflexivity|].
    eapply nl_go with (pre := pre ++ e) (x := x); [rewrite Es, <- app_assoc; reflexivity|exact Hx|apply (nlst_binv (length pre) b)|].
    intros cur2 c2 M1 M2 M3 M4.
    destruct (Hf (length ((pre ++ e) ++ e)) cur2 c2 (Nat.eqb cur2 (len - 1)) (nlst (length (pre ++ e)) b1)) as (b' & E & R & Q1); auto.
    { rewrite M1. reflexivity. }
    { apply nlst_binv. }
    exists b'. split; [|rewrite app_assoc in K; apply K; assumption].
    rewrite <- E. unfold bstep. destruct Hst as [(-> & ->)|(-> & ->)]; reflexivity.
  - eapply nl_go with (x := []); [exact Es|exact Hx|exact I7|]. intros cur' c' N1 N2 N3 N4.
    specialize (N4 Hne _ eq_refl).
    destruct (Hf (length (pre ++ e)) cur' c' true b1) as (b' & E & R & Q1); auto.
    { apply orb_true_r. }
    { apply (nlst_binv (length pre) b). }
    exists b'. split; [|rewrite app_nil_r in K; apply K; assumption].
    rewrite (Step cur' c' true N1 N3 N4). exact E.
Qed.

Lemma strict_block st endst p l0 ls el g x b q pre P : strict st endst -> p <> [] -> Forall (fun c => is_nl c = false) p ->
  Forall (fun c => is_nl c = false) l0 -> Forall on_line ls ->
  (forall np cur c last b1, is_nl c || last = true -> b_lines b1 = l0 :: ls -> b_lines2 b1 = L2 [] -> binv b1 -> b_le b1 = e ->
     out b1 = q -> cur + 1 = np ->
     exists b', match st with BCodeStart => code_end cur c last b1 | _ => quote_end rec cur c last b1 end
                = Ok (np, b') /\ rdy b' /\ out b' = emit q el) ->
  s = (pre ++ p ++ l0) ++ e ++ ended e (map (app p) ls) ++ g ++ x -> closed e g x -> follows e x ->
  pinner st p (length pre) [] q b ->
  (forall b', rdy b' -> out b' = emit q el -> reach (length (pre ++ (ended e (map (app p) (l0 :: ls)) ++ g))) b' P) ->
  reach (length (pre ++ p ++ l0)) b P.
Proof.
  intros Hst Hpn Hp Hl0 Hls Hf Es Hc Hx Hi K.
  assert (Ej : ended e (map (app p) (l0 :: ls)) = joined e (map (app p) (l0 :: ls)) ++ e) by (apply ended_joined; discriminate).
  assert (Es' : s = pre ++ joined e (map (app p) (l0 :: ls)) ++ e ++ g ++ x).
  { rewrite (app_assoc (joined _ _)), <- Ej, Es. cbn [map ended flat_map]. unfold ended. rewrite <- !app_assoc. reflexivity. }
  eapply (@strict_lines st endst p q Hst Hpn Hp ls pre l0 [] b (e ++ g ++ x)); [exact Hls|exact Es'|apply e_y|exact Hi|].
  intros pre1 l1 b1 acc1 F1 F2 F4.
  eapply (@strict_close st endst p acc1 l1 q el pre1 g x b1); [exact Hst|exact Hpn| |rewrite <- F1, <- app_assoc; exact Es'|exact Hc|exact Hx|exact F4|].
  - rewrite F2. exact Hf.
  - intros b' R1 R2. specialize (K b' R1 R2).
    replace ((pre1 ++ p ++ l1) ++ e ++ g) with (pre ++ ended e (map (app p) (l0 :: ls)) ++ g); [exact K|].
    rewrite <- F1, Ej, <- !app_assoc. reflexivity.
Qed.

Lemma code_fin np b1 c last cur ls q : is_nl c || last = true -> b_lines b1 = ls -> b_lines2 b1 = L2 [] -> binv b1 -> b_le b1 = e ->
  out b1 = q -> cur + 1 = np -> join_lines e (map htmlentities ls) = joined e (map escape ls) ->
  exists b', code_end cur c last b1 = Ok (np, b') /\ rdy b' /\ out b' = emit q (ECode ls).
Proof.
  intros Hn L1 L2' Hb Hle Hq Hc Hj. unfold code_end. rewrite Hn, Hc, L1, Hle, Hj. cbn [orb].
  eexists; (split; [reflexivity|]);
    unfold rdy, binv, out, emit in *; bcbn; rewrite ?Hle in *; subst q; (split; [repeat split; tauto|reflexivity]).
Qed.
Lemma quote_fin np b1 c last cur ls h q : is_nl c || last = true -> b_lines b1 = ls -> b_lines2 b1 = L2 [] -> binv b1 -> b_le b1 = e ->
  out b1 = q -> cur + 1 = np -> rec (ended e ls) e = Ok h ->
  exists b', quote_end rec cur c last b1 = Ok (np, b') /\ rdy b' /\ out b' = emit q (EQuote h).
Proof.
  intros Hn L1 L2' Hb Hle Hq Hc Hj. unfold quote_end. rewrite Hn, Hc, L1, Hle. cbn [orb].
  change (lines_text e ls) with (ended e ls). rewrite Hj. cbn [rbind].
  eexists; (split; [reflexivity|]);
    unfold rdy, binv, out, emit in *; bcbn; rewrite ?Hle in *; subst q; (split; [repeat split; tauto|reflexivity]).
Qed.

(* the first line, up to its end *)
Lemma opening st0 st pc w l0 y pre b P :
  (st0 = BCode /\ st = BCodeStart /\ blank pc) \/ (st0 = BQuote /\ st = BQuoteStart /\ pc = ">"%char) ->
  Forall blank w -> visible l0 -> s = (pre ++ (pc :: w) ++ l0) ++ y -> y <> [] -> rdy b ->
  (forall b', pinner st (pc :: w) (length pre) [] (out b) b' -> reach (length (pre ++ (pc :: w) ++ l0)) b' P) ->
  reach (length pre) b P.
Proof.
  intros Hst Hw (Hl & c & r & El & Hcb) Es Hy Hr K. apply on_line_nl in Hl. rewrite El in Hl. apply Forall_cons_iff in Hl. destruct Hl as [Hcn Hrn].
  assert (E0 : s = pre ++ pc :: w ++ c :: r ++ y) by (rewrite Es, El, <- !app_assoc; reflexivity).
  pose proof Hr as (R1 & R2 & R3 & R4 & R5).
  assert (Hpn : is_nl pc = false).
  { destruct Hst as [(_ & _ & H)|(_ & _ & ->)]; [apply blank_nl, H|reflexivity]. }
  set (b1 := set_start2 (length pre) (set_state st0 (set_start (length pre) b))).
  eapply plain_step with (b' := b1); [exact E0|exact Hpn| |].
  { rewrite (@start_step pre pc _ b E0); auto; [|apply app_ne; discriminate].
    destruct Hst as [(-> & _ & [-> | ->])|(-> & _ & ->)]; reflexivity. }
  eapply skip_blanks with (w := w) (y := c :: r ++ y); [rewrite E0, <- !app_assoc; reflexivity|exact Hw| |].
  { destruct Hst as [(-> & _)|(-> & _)]; reflexivity. }
  set (p1 := (pre ++ [pc]) ++ w).
  assert (E1 : s = p1 ++ c :: r ++ y) by (unfold p1; rewrite E0, <- !app_assoc; reflexivity).
  set (b2 := set_prefix (Some (pc :: w)) (set_state st b1)).
  eapply plain_step with (b' := b2); [exact E1|exact Hcn| |].
  { assert (X : dup s (length pre) (length p1) = pc :: w).
    { apply (@dup_mid s pre (pc :: w) (c :: r ++ y)); [exact E0|]. unfold p1. rewrite !app_length. cbn [length]. lia. }
    unfold bstep. destruct Hst as [(-> & -> & _)|(-> & -> & _)].
    - change (b_state b1) with BCode. cbn match. change (b_start b1) with (length pre). rewrite (nblank_sp Hcb), X. reflexivity.
    - change (b_state b1) with BQuote. cbn match. change (b_start b1) with (length pre). rewrite (nblank_sp Hcb), X. reflexivity. }
  eapply scan with (l := r) (y := y); [exact Hrn|rewrite E1, <- app_assoc; reflexivity|exact Hy| |].
  { destruct Hst as [(_ & -> & _)|(_ & -> & _)]; reflexivity. }
  replace ((p1 ++ [c]) ++ r) with (pre ++ (pc :: w) ++ l0) by (unfold p1; rewrite El, <- !app_assoc; reflexivity).
  apply K. unfold pinner, b2, b1. repeat split; auto.
Qed.

Lemma code_block p l0 ls g x pre b P : p <> [] -> Forall blank p -> visible l0 -> Forall on_line ls ->
  join_lines e (map htmlentities (l0 :: ls)) = joined e (map escape (l0 :: ls)) -> closed e g x -> follows e x ->
  s = pre ++ (ended e (map (app p) (l0 :: ls)) ++ g) ++ x -> rdy b ->
  (forall b', rdy b' -> out b' = emit (out b) (ECode (l0 :: ls)) ->
     reach (length (pre ++ (ended e (map (app p) (l0 :: ls)) ++ g))) b' P) ->
  reach (length pre) b P.
Proof.
  intros Hpn Hp Hl0 Hls Hj Hc Hx Es Hr K. destruct p as [|pc w]; [contradiction|].
  apply Forall_cons_iff in Hp as Hp'. destruct Hp' as [Hpc Hw].
  assert (E1 : s = (pre ++ (pc :: w) ++ l0) ++ e ++ ended e (map (app (pc :: w)) ls) ++ g ++ x)
    by (rewrite Es; cbn [map ended flat_map]; unfold ended; rewrite <- !app_assoc; reflexivity).
  eapply (@opening BCode BCodeStart pc w l0); [left; auto|exact Hw|exact Hl0|exact E1|apply e_y|exact Hr|].
  intros b1 Hb1. eapply (@strict_block BCodeStart BCodeEnd (pc :: w) l0 ls (ECode (l0 :: ls)) g x b1 (out b));
    [left; auto|discriminate|eapply Forall_impl; [|exact Hp]; exact blank_nl|apply on_line_nl, Hl0|exact Hls| |exact E1|exact Hc|exact Hx|exact Hb1|exact K].
  intros np cur c last b2 Q1 Q2 Q3 Q4 Q5 Q6 Q7. apply code_fin; assumption.
Qed.
Lemma quote_block w l0 ls h g x pre b P : Forall blank w -> visible l0 -> Forall on_line ls ->
  rec (ended e (l0 :: ls)) e = Ok h -> closed e g x -> follows e x ->
  s = pre ++ (ended e (map (app (">"%char :: w)) (l0 :: ls)) ++ g) ++ x -> rdy b ->
  (forall b', rdy b' -> out b' = emit (out b) (EQuote h) ->
     reach (length (pre ++ (ended e (map (app (">"%char :: w)) (l0 :: ls)) ++ g))) b' P) ->
  reach (length pre) b P.
Proof.
  intros Hw Hl0 Hls Hj Hc Hx Es Hr K.
  assert (E1 : s = (pre ++ (">"%char :: w) ++ l0) ++ e ++ ended e (map (app (">"%char :: w)) ls) ++ g ++ x)
    by (rewrite Es; cbn [map ended flat_map]; unfold ended; rewrite <- !app_assoc; reflexivity).
  eapply (@opening BQuote BQuoteStart ">"%char w l0); [right; auto|exact Hw|exact Hl0|exact E1|apply e_y|exact Hr|].
  intros b1 Hb1. eapply (@strict_block BQuoteStart BQuoteEnd (">"%char :: w) l0 ls (EQuote h) g x b1 (out b));
    [right; auto|discriminate|constructor; [reflexivity|]; eapply Forall_impl; [|exact Hw]; exact blank_nl|apply on_line_nl, Hl0|exact Hls| |exact E1|exact Hc|exact Hx|exact Hb1|exact K].
  intros np cur c last b2 Q1 Q2 Q3 Q4 Q5 Q6 Q7. eapply quote_fin; eauto.
Qed.

(* ---------- the last line, without a line ending ---------- *)
Lemma joined_snoc c l : forall ls, joined e (ls ++ [l ++ [c]]) = joined e (ls ++ [l]) ++ [c].
Proof.
  induction ls as [|a ls IH]; [reflexivity|]. cbn [app].
  assert (X : forall u, joined e (a :: ls ++ [u]) = a ++ e ++ joined e (ls ++ [u])) by (intro u; destruct ls; reflexivity).
  rewrite !X, IH, <- !app_assoc. reflexivity.
Qed.
Lemma snoc_cases (l : bytes) : l <> [] -> exists l' c, l = l' ++ [c] /\ removelast l = l'.
Proof. intro H. exists (removelast l), (last l NUL). split; [apply app_removelast_last, H|reflexivity]. Qed.
(* a list of lines without the last byte *)
Lemma chopped (l0 : bytes) ls (first : Prop) n : 1 <= n -> long first n (l0 :: ls) -> (first -> removelast l0 <> []) ->
  exists l0' ls' l c, joined e (l0 :: ls) = joined e (l0' :: ls') ++ [c] /\ last (l0' :: ls') [] = l /\ last (l0 :: ls) [] = l ++ [c] /\
    removelast (l0' :: ls') = removelast (l0 :: ls) /\
    (forall A : bytes -> Prop, A (l ++ [c]) -> (n <= length l + 1 -> A l) -> Forall A ls -> Forall A ls') /\
    ((ls = [] /\ ls' = [] /\ l0' = removelast l0 /\ first) \/ l0' = l0) /\
    l0 :: ls = removelast (l0' :: ls') ++ [l ++ [c]].
Proof.
  intros Hn Hlong Hf. destruct ls as [|l1 ls].
  - cbn [long] in Hlong. destruct (@snoc_cases l0) as (l' & c & E & Er). { intros ->. apply Hf; auto. }
    exists l', [], l', c. rewrite E. cbn [joined last removelast app]. repeat split; auto.
    left. rewrite <- E. auto.
  - cbn [long] in Hlong. change (last (l0 :: l1 :: ls) []) with (last (l1 :: ls) []) in *.
    set (m := l1 :: ls) in *. assert (Hm : m <> []) by discriminate.
    assert (Em : m = removelast m ++ [last m []]) by (apply app_removelast_last, Hm).
    destruct (@snoc_cases (last m [])) as (l' & c & E & Er). { intros X. rewrite X in Hlong. cbn in Hlong. lia. }
    rewrite E in Em, Hlong. set (a := removelast m) in *.
    exists l0, (a ++ [l']), l', c.
    assert (X1 : last (l0 :: a ++ [l']) [] = l') by (rewrite app_comm_cons; apply last_last).
    assert (X2 : removelast (l0 :: a ++ [l']) = l0 :: a) by (rewrite app_comm_cons; apply removelast_last).
    assert (X3 : removelast (l0 :: m) = l0 :: a) by (destruct m; [contradiction|reflexivity]).
    split; [rewrite Em; rewrite !app_comm_cons; apply joined_snoc|]. split; [exact X1|]. split; [exact E|]. split; [rewrite X2, X3; reflexivity|].
    split; [|split; [right; reflexivity|rewrite X2, Em; reflexivity]].
    intros A _ H2 H3. rewrite Em in H3. apply Forall_app in H3. apply Forall_app. split; [apply H3|]. constructor; [|constructor].
    apply H2. rewrite app_length in Hlong. cbn [length] in Hlong. lia.
Qed.
Lemma le_known pre c b : (Exists newline_byte s \/ e = [LF]) -> s = pre ++ [c] -> is_nl c = false -> binv b ->
  BlockLine.L s (length pre) b -> b_le b = e.
Proof.
  intros Hone Es Hn [[(_ & H)|(H & H2)] _] (K & _); [exact H|]. destruct H2 as [H2|H2]; [exact H2|].
  destruct Hone as [Hone|Hone]; [|congruence]. exfalso. apply Exists_exists in Hone. destruct Hone as (d & Hd & Hnl).
  apply In_nth_error in Hd. destruct Hd as (i & Hi). assert (Hlt : i < len) by (apply nth_error_Some; congruence).
  rewrite Es, app_length in Hlt. cbn [length] in Hlt. destruct (Nat.eq_dec i (length pre)) as [->|Hne].
  - rewrite Es, nth_mid in Hi. injection Hi as <-. apply is_nl_iff in Hnl. congruence.
  - rewrite (K i d) in H; [discriminate|lia|exact Hi|exact Hnl].
Qed.
Lemma last_step pre c b P : (Exists newline_byte s \/ e = [LF]) -> s = pre ++ [c] -> is_nl c = false -> binv b ->
  (b_le b = e -> Nat.eqb (length pre) (len - 1) = true -> line_end len (length pre) c b = len ->
     exists b', bstep rec o s len (length pre) c b = Ok (len, b') /\ P b') ->
  reach (length pre) b P.
Proof.
  intros Hone Es Hn Hb K HL. pose proof (le_known Hone Es Hn Hb HL) as Hle.
  assert (El : length s = length pre + 1) by (rewrite Es, app_length; reflexivity).
  destruct (K Hle) as (b' & Hs & HP).
  - apply Nat.eqb_eq. lia.
  - unfold line_end. replace (Nat.eqb (length pre) (len - 1)) with true by (symmetry; apply Nat.eqb_eq; lia). rewrite Hn. reflexivity.
  - revert HL. change (reach (length pre) b P). eapply plain_step with (b' := b'); [exact Es|exact Hn|rewrite Hs, El; reflexivity|].
    rewrite <- Es. apply reach_end, HP.
Qed.

Lemma para_first_ne exc l : para_first exc l -> l <> [].
Proof. intros [c r _ _ _ _|n c r _ _|c r _ _|d n c r _ _|ds c r H _ _ _|n c r _]; try discriminate. destruct ds; discriminate. Qed.
Lemma long_para ls h pre b (P : bvars -> Prop) : (Exists newline_byte s \/ e = [LF]) -> ls <> [] -> Forall text_line ls -> para_first (o_exc o) (hd [] ls) ->
  long (para_first (o_exc o) (removelast (hd [] ls))) 2 ls ->
  inline (joined e ls) = Ok h -> fix_description (joined e ls) = escape (trim (joined [SP] (map trim ls))) ->
  s = pre ++ joined e ls -> rdy b -> (forall b', rdy b' -> out b' = emit (out b) (EPara ls h) -> P b') ->
  reach (length pre) b P.
Proof.
  intros Hone Hne Hls Hpf Hlong Hin Hfd Es Hr K. destruct ls as [|l0 ls]; [contradiction|]. cbn [hd] in *.
  destruct (@chopped l0 ls _ 2 ltac:(lia) Hlong) as (l0' & ls' & l & c & E1 & E2 & E3 & E4 & E5 & E6 & E7).
  { apply para_first_ne. }
  apply Forall_cons_iff in Hls as Hls'. destruct Hls' as [Hl0 Hls'].
  assert (Hlast : text_line (l ++ [c])).
  { rewrite <- E3. rewrite Forall_forall in Hls. apply Hls. rewrite (app_removelast_last [] Hne) at 2. apply in_or_app. right. left. reflexivity. }
  assert (Hlc : on_line l /\ is_nl c = false).
  { destruct Hlast as [_ Hlast]. apply Forall_app in Hlast. destruct Hlast as [A1 A2]. split; [exact A1|]. apply on_line_nl in A2. inversion A2. assumption. }
  destruct Hlc as [Hol Hcn].
  assert (Hls2 : Forall text_line ls').
  { apply E5; [exact Hlast| |exact Hls']. intro H. split; [destruct l; [cbn in H; lia|discriminate]|exact Hol]. }
  assert (F : para_first (o_exc o) l0' /\ Forall (fun c => is_nl c = false) l0').
  { destruct E6 as [(-> & -> & -> & F)| ->]; [|split; [exact Hpf|apply on_line_nl, Hl0]]. split; [exact F|].
    cbn in E2. rewrite E2. apply on_line_nl, Hol. }
  destruct F as [F1 F2].
  destruct (joined_first l0' ls') as (z & Ez).
  assert (Ep : s = pre ++ l0' ++ z ++ [c]) by (rewrite Es, E1, Ez, <- !app_assoc; reflexivity).
  destruct (para_begin F1 F2 Ep (@snoc_ne z c) Hr) as (p & r & El & Hp & Hb). subst l0'. apply Forall_app in F2. destruct F2 as [_ F2].
  rewrite joined_app in *. set (j := joined e (r :: ls')) in *.
  apply Hb. intros b0 Hb0.
  assert (E0 : s = ((pre ++ p) ++ j) ++ [c]) by (rewrite Es, E1, <- !app_assoc; reflexivity).
  eapply (@loose_lines BPara BParaEnd (length pre) (out b)) with (y := [c]); [left; auto|exact F2|exact Hls2| |discriminate| |exact Hb0|].
  - fold j. rewrite E0, <- app_assoc. reflexivity.
  - left. apply app_ne, Hp.
  - fold j. intros b' (I1 & I2 & I3 & I4 & I5 & I6). eapply last_step; [exact Hone|exact E0|exact Hcn|exact I6|].
    intros Hle Hla Hend. set (b1 := set_state BParaEnd (set_end len b')).
    destruct (@para_fin len b1 c true (length ((pre ++ p) ++ j)) (l0 :: ls) h (out b)) as (b2 & G1 & G2 & G3); auto.
    + apply orb_true_r.
    + cbn. rewrite I2, E0, !app_length. lia.
    + cbn. rewrite I2. apply (@dup_mid s pre _ []); [rewrite Es, app_nil_r; reflexivity|rewrite Es, app_length; reflexivity].
    + rewrite E0, !app_length. reflexivity.
    + exists b2. split; [|apply K; assumption]. rewrite <- G1. unfold bstep. rewrite I1, Hla, orb_true_r, Hend. reflexivity.
Qed.

Lemma long_html r ls pre b (P : bvars -> Prop) : (Exists newline_byte s \/ e = [LF]) -> Forall text_line (("<"%char :: r) :: ls) ->
  long (r <> []) 2 (("<"%char :: r) :: ls) -> s = pre ++ joined e (("<"%char :: r) :: ls) -> rdy b ->
  (forall b', rdy b' -> out b' = emit (out b) (EHtml (("<"%char :: r) :: ls)) -> P b') ->
  reach (length pre) b P.
Proof.
  intros Hone Hls Hlong Es Hr K. set (l0 := "<"%char :: r) in *.
  assert (Hne : l0 :: ls <> []) by discriminate.
  destruct (@chopped l0 ls _ 2 ltac:(lia) Hlong) as (l0' & ls' & l & c & E1 & E2 & E3 & E4 & E5 & E6 & E7).
  { intro H. unfold l0. destruct r; [contradiction|discriminate]. }
  apply Forall_cons_iff in Hls as Hls'. destruct Hls' as [Hl0 Hls'].
  assert (Hlast : text_line (l ++ [c])).
  { rewrite <- E3. rewrite Forall_forall in Hls. apply Hls. rewrite (app_removelast_last [] Hne) at 2. apply in_or_app. right. left. reflexivity. }
  assert (Hlc : on_line l /\ is_nl c = false).
  { destruct Hlast as [_ Hlast]. apply Forall_app in Hlast. destruct Hlast as [A1 A2]. split; [exact A1|]. apply on_line_nl in A2. inversion A2. assumption. }
  destruct Hlc as [Hol Hcn].
  assert (Hls2 : Forall text_line ls').
  { apply E5; [exact Hlast| |exact Hls']. intro H. split; [destruct l; [cbn in H; lia|discriminate]|exact Hol]. }
  assert (F : exists r', l0' = "<"%char :: r' /\ Forall (fun c => is_nl c = false) r').
  { destruct E6 as [(-> & -> & X & F)| ->].
    - cbn in E2. apply on_line_nl in Hol. rewrite <- E2 in Hol. unfold l0 in X. destruct r as [|r0 r]; [contradiction|].
      change (removelast ("<"%char :: r0 :: r)) with ("<"%char :: removelast (r0 :: r)) in X. rewrite X in Hol.
      apply Forall_cons_iff in Hol. eexists. split; [exact X|apply Hol].
    - exists r. split; [reflexivity|]. destruct Hl0 as [_ Hl0]. apply on_line_nl in Hl0. apply Forall_cons_iff in Hl0. apply Hl0. }
  destruct F as (r' & -> & F2). rewrite joined_cons in *. set (j := joined e (r' :: ls')) in *.
  assert (E0 : s = ((pre ++ ["<"%char]) ++ j) ++ [c]) by (rewrite Es, E1, <- !app_assoc; reflexivity).
  assert (E0' : s = pre ++ "<"%char :: j ++ [c]) by (rewrite E0, <- !app_assoc; reflexivity).
  pose proof Hr as (R1 & R2 & R3 & R4 & R5).
  eapply plain_step with (b' := set_state BHtml (set_start (length pre) b)); [exact E0'|reflexivity| |].
  { rewrite (@start_step pre "<"%char (j ++ [c]) b E0'); auto. apply snoc_ne. }
  eapply (@loose_lines BHtml BHtmlEnd (length pre) (out b)) with (y := [c]); [right; auto|exact F2|exact Hls2| |discriminate| | |].
  - fold j. rewrite E0, <- app_assoc. reflexivity.
  - left. apply snoc_ne.
  - repeat split; auto.
  - fold j. intros b' (I1 & I2 & I3 & I4 & I5 & I6). eapply last_step; [exact Hone|exact E0|exact Hcn|exact I6|].
    intros Hle Hla Hend. set (b1 := set_state BHtmlEnd (set_end len b')).
    destruct (@html_fin len b1 c true (length ((pre ++ ["<"%char]) ++ j)) (l0 :: ls) (out b)) as (b2 & G1 & G2 & G3); auto.
    + apply orb_true_r.
    + cbn. rewrite I2. apply (@dup_mid s pre _ []); [rewrite Es, app_nil_r; reflexivity|rewrite Es, app_length; reflexivity].
    + rewrite E0, !app_length. reflexivity.
    + exists b2. split; [|apply K; assumption]. rewrite <- G1. unfold bstep. rewrite I1, Hla, orb_true_r, Hend. reflexivity.
Qed.

Lemma long_rule c n pre b (P : bvars -> Prop) : (Exists newline_byte s \/ e = [LF]) -> In c (B "*+-") -> s = pre ++ repeat c (3 + n) -> rdy b ->
  (forall b', rdy b' -> out b' = emit (out b) ERule -> P b') -> reach (length pre) b P.
Proof.
  intros Hone Hc Es Hr K. set (hs := repeat c n) in *.
  assert (Hn : is_nl c = false) by (destruct Hc as [<-|[<-|[<-|[]]]]; reflexivity).
  assert (Hsn : repeat c (S n) = hs ++ [c]) by apply repeat_cons.
  assert (E0 : s = pre ++ c :: c :: hs ++ [c]) by (rewrite Es, <- Hsn; reflexivity).
  pose proof Hr as (R1 & R2 & R3 & R4 & R5).
  set (b1 := set_start2 (length pre) (set_d c (set_state BListOrRule (set_start (length pre) b)))).
  eapply plain_step with (b' := b1); [exact E0|exact Hn| |].
  { rewrite (@start_step pre c _ b E0); auto; [|discriminate]. destruct Hc as [<-|[<-|[<-|[]]]]; reflexivity. }
  assert (E1 : s = (pre ++ [c]) ++ c :: hs ++ [c]) by (rewrite E0, <- !app_assoc; reflexivity).
  eapply plain_step with (b' := set_state BRuleOrEmph b1); [exact E1|exact Hn| |].
  { unfold bstep. change (b_state b1) with BListOrRule. change (b_start b1) with (length pre). change (b_d b1) with c.
    rewrite eqb_refl, app_length. cbn [length]. rewrite Nat.eqb_refl. reflexivity. }
  set (b2 := set_state BRuleOrEmph b1).
  assert (Fin : forall p b3, s = p ++ [c] -> out b3 = out b -> b_lines b3 = [] -> b_lines2 b3 = L2 [] -> binv b3 -> b_d b3 = c -> b_state b3 = BRule ->
    reach (length p) b3 P).
  { intros p b3 E B1 B2 B3 B4 B5 B6. eapply last_step; [exact Hone|exact E|exact Hn|exact B4|]. intros Hle Hla Hend.
    eexists. split.
    { unfold bstep. rewrite B6, B5, Hla, eqb_refl, orb_true_r. cbn [negb andb].
      replace (length p + 1) with len by (rewrite E, app_length; reflexivity). reflexivity. }
    apply K.
    - unfold rdy, binv in *. bcbn. repeat split; auto; tauto.
    - revert B1. unfold out, emit, element_html. bcbn. rewrite Hle. intro X. injection X as X1 X2 X3 X4 X5. congruence. }
  assert (E2 : s = ((pre ++ [c]) ++ [c]) ++ hs ++ [c]) by (rewrite E0, <- !app_assoc; reflexivity).
  destruct n as [|n].
  - cbn [repeat] in hs. subst hs. cbn [app] in E2. set (p := (pre ++ [c]) ++ [c]) in *.
    assert (Ec : nth_error s (length p) = Some c) by (rewrite E2; apply nth_mid).
    eapply reach_step with (cur' := length p) (b' := set_state BRule b2); [apply nth_error_Some; congruence|rewrite (iter_plain rec o len b2 Ec Hn)|].
    { unfold bstep. change (b_state b2) with BRuleOrEmph. change (b_d b2) with c. rewrite eqb_refl.
      replace (Nat.eqb (length p) (len - 1)) with true; [reflexivity|]. symmetry. apply Nat.eqb_eq. rewrite E2, app_length. cbn [length]. lia. }
    apply Fin; auto. repeat split; assumption.
  - cbn [repeat] in hs. set (hs' := repeat c n) in hs. subst hs. cbn [app] in E2.
    eapply plain_step with (b' := set_state BRule b2); [exact E2|exact Hn| |].
    { unfold bstep. change (b_state b2) with BRuleOrEmph. change (b_d b2) with c. rewrite eqb_refl, (not_last2 E2) by apply snoc_ne. reflexivity. }
    eapply rules with (n := n) (c := c) (y := [c]); [rewrite E2, <- !app_assoc; reflexivity|discriminate|exact Hn|reflexivity|reflexivity|]. fold hs'.
    apply Fin; auto; [rewrite E2, <- !app_assoc; reflexivity|repeat split; assumption].
Qed.

Lemma long_head n w t d sl h pre b (P : bvars -> Prop) : (Exists newline_byte s \/ e = [LF]) -> 1 <= n -> Forall blank w -> w <> [] -> visible t ->
  visible (removelast t) ->
  inline t = Ok h -> dec (N.of_nat n) = d -> slugify t = sl -> htmlentities t = escape t ->
  s = pre ++ repeat "#"%char n ++ w ++ t -> rdy b ->
  (forall b', rdy b' -> out b' = emit (out b) (EHead n d t sl h) -> P b') -> reach (length pre) b P.
Proof.
  intros Hone Hn Hw Hwn (Ht & _) (Ht2 & c & r & Et & Hcb) Hin Hd Hsl Hesc Es Hr K.
  destruct (@snoc_cases t) as (t' & z & E & Er). { intros ->. discriminate Et. } rewrite Er in Et, Ht2. clear Er.
  destruct n as [|n]; [lia|]. destruct w as [|w0 w]; [contradiction|]. apply Forall_cons_iff in Hw. destruct Hw as [Hw0 Hw].
  assert (Hzn : is_nl z = false).
  { apply on_line_nl in Ht. rewrite E in Ht. apply Forall_app in Ht. destruct Ht as [_ Ht]. inversion Ht. assumption. }
  apply on_line_nl in Ht2. rewrite Et in Ht2. apply Forall_cons_iff in Ht2. destruct Ht2 as [Hcn Hrn]. rewrite Et in E.
  cbn [repeat] in Es. set (hs := repeat "#"%char n) in *.
  assert (E0 : s = pre ++ "#"%char :: hs ++ w0 :: w ++ c :: r ++ [z]) by (rewrite Es, E; reflexivity).
  pose proof Hr as (R1 & R2 & R3 & R4 & R5).
  set (b1 := set_level 1 (set_state BHeader (set_start (length pre) b))).
  eapply plain_step with (b' := b1); [exact E0|reflexivity| |].
  { rewrite (@start_step pre "#"%char _ b E0); auto. apply app_ne. discriminate. }
  eapply hashes with (n := n); [rewrite E0, <- app_assoc; reflexivity|reflexivity|]. fold hs.
  set (b2 := set_level _ b1). replace (b_level b1 + n) with (S n) in b2 by (unfold b1; bcbn; lia).
  assert (E1 : s = ((pre ++ ["#"%char]) ++ hs) ++ w0 :: w ++ c :: r ++ [z]) by (rewrite E0, <- !app_assoc; reflexivity).
  eapply plain_step with (b' := set_state BHeaderTitleStart b2); [exact E1|apply blank_nl, Hw0| |].
  { unfold bstep. change (b_state b2) with BHeader. cbn match.
    assert (X : (w0 == "#"%char) = false) by (destruct Hw0 as [-> | ->]; reflexivity). rewrite X, (blank_sp Hw0). reflexivity. }
  eapply skip_blanks with (w := w) (y := c :: r ++ [z]); [rewrite E1, <- !app_assoc; reflexivity|exact Hw|reflexivity|].
  set (p2 := ((((pre ++ ["#"%char]) ++ hs) ++ [w0]) ++ w)).
  assert (E2 : s = p2 ++ c :: r ++ [z]) by (unfold p2; rewrite E1, <- !app_assoc; reflexivity).
  set (b3 := set_state BHeaderTitle (set_start (length p2) (set_state BHeaderTitleStart b2))).
  eapply plain_step with (b' := b3); [exact E2|exact Hcn| |].
  { unfold bstep. change (b_state (set_state BHeaderTitleStart b2)) with BHeaderTitleStart. cbn match.
    rewrite (nblank_sp Hcb), Hcn. reflexivity. }
  eapply scan with (l := r) (y := [z]); [exact Hrn|rewrite E2, <- app_assoc; reflexivity|discriminate|reflexivity|].
  set (p3 := (p2 ++ [c]) ++ r).
  assert (E3 : s = p3 ++ [z]) by (unfold p3; rewrite E2, <- !app_assoc; reflexivity).
  eapply last_step; [exact Hone|exact E3|exact Hzn|split; assumption|]. intros Hle Hla Hend.
  assert (Ed : dup s (length p2) len = t).
  { apply (@dup_mid s p2 t []); [rewrite E2, E, app_nil_r; reflexivity|]. rewrite E2, E, !app_length. cbn [length]. rewrite app_length. cbn [length]. lia. }
  eexists. split.
  { unfold bstep. change (b_state b3) with BHeaderTitle. cbn match. unfold header_title. rewrite Hla, orb_true_r, Hend.
    change (b_start (set_end len b3)) with (length p2). change (b_end (set_end len b3)) with len.
    rewrite Ed, Hin. cbn [rbind]. replace (length p3 + 1) with len by (rewrite E3, app_length; reflexivity). reflexivity. }
  cbv zeta. rewrite Hesc. change (b_le b3) with (b_le b) in Hle. apply K.
  - destruct (o_fh o), (o_hdrs o), (b_fh b) eqn:Ef; cbn match;
      change (b_fh (set_end len b3)) with (b_fh b); rewrite ?Ef;
      unfold rdy; repeat split; auto.
  - unfold emit, out, element_html. rewrite Hsl.
    change (b_fh (set_end len b3)) with (b_fh b).
    destruct (o_fh o), (o_hdrs o), (b_fh b) eqn:Ef; cbn match; rewrite <- Hd;
      unfold toctree_append; unfold b3, b2, b1; bcbn; rewrite ?Ef, ?Hle; reflexivity.
Qed.

(* code blocks and quotes *)
Lemma strict_last st endst p acc l c q el pre0 b (P : bvars -> Prop) : (Exists newline_byte s \/ e = [LF]) -> strict st endst ->
  (forall np cur c1 last b1, is_nl c1 || last = true -> b_lines b1 = acc ++ [l ++ [c]] -> b_lines2 b1 = L2 [] -> binv b1 -> b_le b1 = e ->
     out b1 = q -> cur + 1 = np ->
     exists b', match st with BCodeStart => code_end cur c1 last b1 | _ => quote_end rec cur c1 last b1 end
                = Ok (np, b') /\ rdy b' /\ out b' = emit q el) ->
  s = (pre0 ++ p ++ l) ++ [c] -> is_nl c = false -> pinner st p (length pre0) acc q b ->
  (forall b', rdy b' -> out b' = emit q el -> P b') ->
  reach (length (pre0 ++ p ++ l)) b P.
Proof.
  intros Hone Hst Hf Es Hcn (I1 & I2 & I3 & I4 & I5 & I6 & I7) K.
  eapply last_step; [exact Hone|exact Es|exact Hcn|exact I7|]. intros Hle Hla Hend.
  assert (X : dup s (length pre0) len = p ++ l ++ [c]).
  { apply (@dup_mid s pre0 (p ++ l ++ [c]) []); [rewrite Es, app_nil_r, <- !app_assoc; reflexivity|]. rewrite Es, !app_length. lia. }
  set (b1 := set_state endst (set_lines (acc ++ [l ++ [c]]) (set_end len b))).
  destruct (Hf len (length (pre0 ++ p ++ l)) c true b1) as (b' & E & R1 & R2); auto.
  { apply orb_true_r. }
  { rewrite Es at 1. rewrite !app_length. reflexivity. }
  exists b'. split; [|apply K; assumption]. rewrite <- E.
  unfold bstep. rewrite I1, Hla, orb_true_r, Hend, I2.
  change (b_start2 (set_end len b)) with (b_start2 b). rewrite I3.
  change (b_end (set_end len b)) with len. rewrite X, starts_with_app, skipn_len.
  change (b_lines (set_end len b)) with (b_lines b). rewrite I4.
  destruct Hst as [(-> & ->)|(-> & ->)]; reflexivity.
Qed.

Lemma long_strict st0 st endst pc w l0 ls el pre b (P : bvars -> Prop) : (Exists newline_byte s \/ e = [LF]) -> strict st endst ->
  (st0 = BCode /\ st = BCodeStart /\ blank pc) \/ (st0 = BQuote /\ st = BQuoteStart /\ pc = ">"%char) ->
  Forall blank w -> visible l0 -> Forall on_line ls -> long (visible (removelast l0)) 1 (l0 :: ls) ->
  (forall np cur c last b1, is_nl c || last = true -> b_lines b1 = l0 :: ls -> b_lines2 b1 = L2 [] -> binv b1 -> b_le b1 = e ->
     out b1 = out b -> cur + 1 = np ->
     exists b', match st with BCodeStart => code_end cur c last b1 | _ => quote_end rec cur c last b1 end
                = Ok (np, b') /\ rdy b' /\ out b' = emit (out b) el) ->
  s = pre ++ joined e (map (app (pc :: w)) (l0 :: ls)) -> rdy b ->
  (forall b', rdy b' -> out b' = emit (out b) el -> P b') -> reach (length pre) b P.
Proof.
  intros Hone Hst Hpc Hw Hl0 Hls Hlong Hf Es Hr K. set (p := pc :: w) in *.
  destruct (@chopped l0 ls _ 1 ltac:(lia) Hlong) as (l0' & ls' & l & c & E1 & E2 & E3 & E4 & E5 & E6 & E7).
  { intros (_ & c & r & X & _). rewrite X. discriminate. }
  set (R := removelast (l0' :: ls')) in *.
  assert (E8 : l0' :: ls' = R ++ [l]) by (rewrite <- E2; apply app_removelast_last; discriminate).
  assert (Hlc : on_line l /\ is_nl c = false).
  { assert (Hall : Forall on_line (l0 :: ls)) by (constructor; [apply Hl0|exact Hls]). rewrite E7 in Hall. apply Forall_app in Hall.
    destruct Hall as [_ Hall]. apply Forall_inv in Hall. apply Forall_app in Hall. destruct Hall as [A1 A2]. split; [exact A1|].
    apply on_line_nl in A2. inversion A2. assumption. }
  destruct Hlc as [Hol Hcn].
  assert (Hls2 : Forall on_line ls').
  { apply E5; [|intros _; exact Hol|exact Hls]. assert (Hall : Forall on_line (l0 :: ls)) by (constructor; [apply Hl0|exact Hls]).
    rewrite E7 in Hall. apply Forall_app in Hall. destruct Hall as [_ Hall]. apply Forall_inv in Hall. exact Hall. }
  assert (Hv : visible l0') by (destruct E6 as [(_ & _ & -> & F)| ->]; assumption).
  assert (Ej : joined e (map (app p) (l0 :: ls)) = joined e (map (app p) (l0' :: ls')) ++ [c]).
  { rewrite E7, E8, !map_app. cbn [map]. rewrite app_assoc. apply joined_snoc. }
  assert (Es' : s = pre ++ joined e (map (app p) (l0' :: ls')) ++ [c]) by (rewrite Es, Ej; reflexivity).
  destruct (joined_first (p ++ l0') (map (app p) ls')) as (z & Ez).
  assert (E0 : s = (pre ++ p ++ l0') ++ z ++ [c]).
  { rewrite Es'. change (map (app p) (l0' :: ls')) with ((p ++ l0') :: map (app p) ls'). rewrite Ez, <- !app_assoc. reflexivity. }
  eapply (@opening st0 st pc w l0'); [exact Hpc|exact Hw|exact Hv|exact E0|apply snoc_ne|exact Hr|].
  intros b1 Hb1.
  eapply (@strict_lines st endst p (out b)) with (ls := ls') (y := [c]); [exact Hst|discriminate| |exact Hls2|exact Es'|discriminate|exact Hb1|].
  { constructor; [destruct Hpc as [(_ & _ & H)|(_ & _ & ->)]; [apply blank_nl, H|reflexivity]|]. eapply Forall_impl; [|exact Hw]. exact blank_nl. }
  intros pre1 l1 b2 acc1 F1 F2 F3. change ([] ++ l0' :: ls') with (l0' :: ls') in F2. rewrite E8 in F2.
  apply app_inj_tail in F2. destruct F2 as [-> ->].
  eapply (@strict_last st endst p R l c (out b) el pre1 b2); [exact Hone|exact Hst|rewrite <- E7; exact Hf|rewrite <- F1, <- app_assoc; exact Es'|exact Hcn|exact F3|exact K].
Qed.
Lemma long_code p l0 ls pre b (P : bvars -> Prop) : (Exists newline_byte s \/ e = [LF]) -> p <> [] -> Forall blank p -> visible l0 -> Forall on_line ls ->
  long (visible (removelast l0)) 1 (l0 :: ls) -> join_lines e (map htmlentities (l0 :: ls)) = joined e (map escape (l0 :: ls)) ->
  s = pre ++ joined e (map (app p) (l0 :: ls)) -> rdy b ->
  (forall b', rdy b' -> out b' = emit (out b) (ECode (l0 :: ls)) -> P b') -> reach (length pre) b P.
Proof.
  intros Hone Hpn Hp Hl0 Hls Hlong Hj Es Hr K. destruct p as [|pc w]; [contradiction|].
  apply Forall_cons_iff in Hp. destruct Hp as [Hpc Hw].
  eapply (@long_strict BCode BCodeStart BCodeEnd pc w l0 ls (ECode (l0 :: ls)));
    [exact Hone|left; auto|left; auto|exact Hw|exact Hl0|exact Hls|exact Hlong| |exact Es|exact Hr|exact K].
  intros np cur c last b2 Q1 Q2 Q3 Q4 Q5 Q6 Q7. apply code_fin; assumption.
Qed.
Lemma long_quote w l0 ls h pre b (P : bvars -> Prop) : (Exists newline_byte s \/ e = [LF]) -> Forall blank w -> visible l0 -> Forall on_line ls ->
  long (visible (removelast l0)) 1 (l0 :: ls) -> rec (ended e (l0 :: ls)) e = Ok h ->
  s = pre ++ joined e (map (app (">"%char :: w)) (l0 :: ls)) -> rdy b ->
  (forall b', rdy b' -> out b' = emit (out b) (EQuote h) -> P b') -> reach (length pre) b P.
Proof.
  intros Hone Hw Hl0 Hls Hlong Hj Es Hr K.
  eapply (@long_strict BQuote BQuoteStart BQuoteEnd ">"%char w l0 ls (EQuote h));
    [exact Hone|right; auto|right; auto|exact Hw|exact Hl0|exact Hls|exact Hlong| |exact Es|exact Hr|exact K].
  intros np cur c last b2 Q1 Q2 Q3 Q4 Q5 Q6 Q7. eapply quote_fin; eauto.
Qed.

(* ---------- lists ---------- *)
Section Lists.
Variables (item : bytes -> bool) (plen : nat) (tag : bytes) (st endst : bstate) (cf : option bytes * nat).
Hypothesis Hscan : scanning st = true.
Hypothesis Hstart : forall cur c b, b_state b = st -> (b_prefix b, b_plen b) = cf ->
  bstep rec o s len cur c b = list_start item plen tag st endst s len cur c (Nat.eqb cur (len - 1)) b.
Hypothesis Hend : forall cur c b, b_state b = endst -> bstep rec o s len cur c b = list_end tag st cur c (Nat.eqb cur (len - 1)) b.

(* one line: a new item or the continuation of the current one *)
Inductive act : list bytes * list bytes -> bytes -> list bytes * list bytes -> Prop :=
| A_first t : item t = true -> act ([], []) t ([], [skipn plen t])
| A_item hs cur h t : item t = true -> cur <> [] -> inline (joined e cur) = Ok h ->
    act (hs, cur) t (hs ++ [h], [skipn plen t])
| A_cont hs cur t : item t = false -> starts_with t (repeat SP plen) = true ->
    act (hs, cur) t (hs, cur ++ [skipn plen t]).
Inductive acts : list bytes * list bytes -> list bytes -> list bytes * list bytes -> Prop :=
| AS_nil a : acts a [] a
| AS_cons a t b ts c : act a t b -> acts b ts c -> acts a (t :: ts) c.

Definition linner (a : nat) (k : list bytes * list bytes) (q : outs) (b : bvars) : Prop :=
  b_state b = st /\ (b_prefix b, b_plen b) = cf /\ b_start2 b = a /\ b_lines b = fst k /\ b_lines2 b = L2 (snd k) /\ out b = q /\ binv b.

Lemma join_joined l : join_lines e l = joined e l.
Proof. induction l as [|x [|y l] IH]; [reflexivity|reflexivity|]. cbn [join_lines joined] in *. rewrite IH. reflexivity. Qed.

(* the switch at the end of a line *)
Lemma list_nl pre0 t k k' q b y cur c last : s = (pre0 ++ t) ++ y -> act k t k' -> linner (length pre0) k q b -> b_le b = e ->
  is_nl c || last = true -> Nat.eqb cur (len - 1) = last -> line_end len cur c b = length (pre0 ++ t) ->
  exists b', (b_state b' = endst /\ (b_prefix b', b_plen b') = cf /\ b_lines b' = fst k' /\ b_lines2 b' = L2 (snd k') /\ out b' = q /\
    binv b' /\ b_le b' = e) /\
  bstep rec o s len cur c b = if last then list_end tag st cur c last b' else Ok (cur + 1, b').
Proof.
  intros Es Ha (I1 & I2 & I3 & I4 & I5 & I6 & I7) Hle N1 N3 N4. set (pre := pre0 ++ t) in *.
  assert (X : dup s (length pre0) (length pre) = t).
  { apply (@dup_mid s pre0 t y); [rewrite Es; unfold pre; rewrite <- !app_assoc; reflexivity|unfold pre; rewrite app_length; reflexivity]. }
  rewrite Hstart by assumption. unfold list_start. rewrite N3, N1, N4.
  change (b_start2 (set_end (length pre) b)) with (b_start2 b). rewrite I3.
  change (b_end (set_end (length pre) b)) with (length pre). rewrite X.
  set (b1 := set_end (length pre) b).
  assert (L2e : b_lines2 b1 = b_lines2 b) by reflexivity. assert (L1e : b_lines b1 = b_lines b) by reflexivity.
  assert (Ble : b_le b1 = e) by exact Hle.
  destruct Ha as [t Hi|hs cu h t Hi Hcu Hh|hs cu t Hi Hsp]; rewrite Hi; cbn [fst snd] in *.
  - unfold flush_item. rewrite L2e, I5. cbn [rbind]. unfold push2. rewrite L2e, I5. cbn [rbind app].
    eexists. split; [|reflexivity]. unfold b1. bcbn. repeat split; auto; apply I7.
  - unfold flush_item. rewrite L2e, I5. destruct cu as [|u cu]; [contradiction|].
    rewrite Ble, join_joined, Hh. cbn [rbind]. unfold push2. bcbn. cbn [app].
    eexists. split; [|reflexivity]. unfold b1. bcbn. rewrite I4. repeat split; auto; apply I7.
  - unfold spaces. rewrite Hsp. unfold push2. rewrite L2e, I5. cbn [rbind].
    eexists. split; [|reflexivity]. unfold b1. bcbn. repeat split; auto; apply I7.
Qed.
Lemma linner_nlst p a k q b : linner a k q b -> linner a k q (nlst p b).
Proof. intros (I1 & I2 & I3 & I4 & I5 & I6 & I7). repeat split; auto; apply nlst_binv. Qed.

Lemma acts_inv a t ts c : acts a (t :: ts) c -> exists b, act a t b /\ acts b ts c.
Proof. intro H. inversion H; eauto. Qed.
Lemma acts_nil_inv a c : acts a [] c -> a = c.
Proof. intro H. inversion H; reflexivity. Qed.
Lemma acts_last : forall ts a t c, acts a (t :: ts) c -> exists b, acts a (removelast (t :: ts)) b /\ act b (last (t :: ts) []) c.
Proof.
  induction ts as [|t2 ts IH]; intros a t c H; destruct (acts_inv H) as (b & H1 & H2).
  - apply acts_nil_inv in H2. rewrite H2 in H1. exists a. split; [constructor|exact H1].
  - destruct (IH b t2 c H2) as (d & D1 & D2). exists d. split; [|exact D2].
    change (removelast (t :: t2 :: ts)) with (t :: removelast (t2 :: ts)). econstructor; eassumption.
Qed.
Lemma list_lines q : forall ts pre0 t k k' b y P,
  t <> [] -> Forall text_line ts -> s = pre0 ++ joined e (t :: ts) ++ y -> y <> [] ->
  acts k (removelast (t :: ts)) k' -> linner (length pre0) k q b ->
  (forall pre1 t1 b1, t1 <> [] -> pre0 ++ joined e (t :: ts) = pre1 ++ t1 -> last (t :: ts) [] = t1 ->
     linner (length pre1) k' q b1 -> reach (length (pre1 ++ t1)) b1 P) ->
  reach (length (pre0 ++ t)) b P.
Proof.
  induction ts as [|t2 ts IH]; intros pre0 t k k' b y P Ht Hts Es Hy Ha Hi K.
  - apply acts_nil_inv in Ha. subst k'. eapply K; [exact Ht|reflexivity|reflexivity|exact Hi].
  - change (removelast (t :: t2 :: ts)) with (t :: removelast (t2 :: ts)) in Ha. destruct (acts_inv Ha) as (b0 & Ha1 & Ha2). clear Ha.
    change (joined e (t :: t2 :: ts)) with (t ++ e ++ joined e (t2 :: ts)) in *.
    destruct (joined_first t2 ts) as (z & Ez). set (J := joined e (t2 :: ts)) in *.
    apply Forall_cons_iff in Hts. destruct Hts as [[Ht2 Hl2] Hts]. apply on_line_nl in Hl2.
    destruct t2 as [|c2 l2]; [contradiction|]. apply Forall_cons_iff in Hl2. destruct Hl2 as [Hc2 Hl2].
    set (pre := pre0 ++ t) in *.
    assert (E1 : s = pre ++ e ++ c2 :: l2 ++ z ++ y).
    { rewrite Es, Ez. unfold pre. rewrite <- !app_assoc. reflexivity. }
    assert (Hne : pre <> []) by (unfold pre; apply app_ne, Ht).
    assert (Hzy : z ++ y <> []) by apply app_ne, Hy.
    pose proof Hi as (I1 & I2 & I3 & I4 & I5 & I6 & I7).
    eapply nl_go; [exact E1|apply follows_char, Hc2|exact I7|]. intros cur' c' N1 N2 N3 N4.
    specialize (N4 Hne _ eq_refl). cbn match in N3.
    destruct (@list_nl pre0 t k b0 q (nlst (length pre) b) (e ++ c2 :: l2 ++ z ++ y) cur' c' false E1 Ha1 (linner_nlst _ Hi) eq_refl) as (b1 & (J1 & J2 & J3 & J4 & J5 & J6 & J7) & Eb1);
      [rewrite N1; reflexivity|exact N3|exact N4|].
    exists b1. split; [rewrite Eb1, N2; reflexivity|].
    assert (E2 : s = (pre ++ e) ++ c2 :: l2 ++ z ++ y) by (rewrite E1, <- !app_assoc; reflexivity).
    set (b2 := set_start2 (length (pre ++ e)) (set_state st b1)).
    eapply plain_step with (b' := b2); [exact E2|exact Hc2| |].
    { rewrite Hend by assumption. unfold list_end. rewrite Hc2, (not_last2 E2) by apply app_ne, Hzy. reflexivity. }
    eapply scan with (l := l2) (y := z ++ y); [exact Hl2|rewrite E2, <- !app_assoc; reflexivity|exact Hzy|exact Hscan|].
    replace (((pre ++ e) ++ [c2]) ++ l2) with ((pre ++ e) ++ c2 :: l2) by (rewrite <- !app_assoc; reflexivity).
    eapply (IH (pre ++ e) (c2 :: l2) b0 k' b2 y).
    + discriminate.
    + exact Hts.
    + fold J. rewrite Es. unfold pre. rewrite <- !app_assoc. reflexivity.
    + exact Hy.
    + exact Ha2.
    + unfold linner, b2. bcbn. repeat split; auto; apply J6.
    + intros pre1 t1 b3 F0 F1 F2 F3. eapply K; [exact F0| |exact F2|exact F3].
      rewrite <- F1. unfold J, pre. rewrite <- !app_assoc. reflexivity.
Qed.

(* flushing the last item *)
Definition flushed (k : list bytes * list bytes) (hs : list bytes) : Prop :=
  snd k <> [] /\ exists h, inline (joined e (snd k)) = Ok h /\ hs = fst k ++ [h].

Lemma list_fin np b1 c last cur k hs q : is_nl c || last = true -> b_lines b1 = fst k -> b_lines2 b1 = L2 (snd k) -> binv b1 -> b_le b1 = e ->
  out b1 = q -> cur + 1 = np -> flushed k hs ->
  exists b', list_end tag st cur c last b1 = Ok (np, b') /\ rdy b' /\ out b' = emit q (EList tag hs).
Proof.
  intros Hn L1 L2' Hb Hle Hq Hc (Hk & h & Hh & ->). unfold list_end, flush_item. rewrite Hn, Hc, L2'. cbn [orb].
  destruct (snd k) as [|u cu]; [contradiction|]. rewrite Hle, join_joined, Hh. cbn [rbind]. bcbn. rewrite L1.
  eexists; (split; [reflexivity|]);
    unfold rdy, binv, out, emit in *; bcbn; rewrite ?Hle in *; subst q; (split; [repeat split; tauto|reflexivity]).
Qed.

Lemma list_block t ts k hs q g x b pre P : t <> [] -> Forall text_line ts -> acts ([], []) (t :: ts) k -> flushed k hs ->
  s = (pre ++ t) ++ e ++ ended e ts ++ g ++ x -> closed e g x -> follows e x -> linner (length pre) ([], []) q b ->
  (forall b', rdy b' -> out b' = emit q (EList tag hs) -> reach (length (pre ++ (ended e (t :: ts) ++ g))) b' P) ->
  reach (length (pre ++ t)) b P.
Proof.
  intros Ht Hts Ha Hk Es Hc Hx Hi K.
  destruct (acts_last Ha) as (k1 & Ha1 & F2).
  assert (Ej : ended e (t :: ts) = joined e (t :: ts) ++ e) by (apply ended_joined; discriminate).
  assert (Es' : s = pre ++ joined e (t :: ts) ++ e ++ g ++ x).
  { rewrite (app_assoc (joined _ _)), <- Ej, Es. cbn [ended flat_map]. unfold ended. rewrite <- !app_assoc. reflexivity. }
  eapply (@list_lines q ts pre t ([], []) k1 b (e ++ g ++ x)); [exact Ht|exact Hts|exact Es'|apply e_y|exact Ha1|exact Hi|].
  intros pre0 t1 b1 F0 F1 Et F4. rewrite Et in F2.
  assert (F3 : pre ++ t ++ e ++ ended e ts = (pre0 ++ t1) ++ e).
  { rewrite <- F1, <- app_assoc, <- Ej. cbn [ended flat_map]. unfold ended. rewrite <- !app_assoc. reflexivity. }
  clear F1. assert (F1 : s = (pre0 ++ t1) ++ e ++ g ++ x).
  { rewrite (app_assoc (pre0 ++ t1)), <- F3, Es, <- !app_assoc. reflexivity. }
  clear Es Es' Ej Hi b Ha Ha1 Et.
  assert (Kx : forall b', rdy b' -> out b' = emit q (EList tag hs) -> reach (length ((pre0 ++ t1) ++ e ++ g)) b' P).
  { intros b' R1 R2. rewrite (app_assoc (pre0 ++ t1)), <- F3. specialize (K b' R1 R2).
    replace ((pre ++ t ++ e ++ ended e ts) ++ g) with (pre ++ ended e (t :: ts) ++ g); [exact K|].
    cbn [ended flat_map]. unfold ended. rewrite <- !app_assoc. reflexivity. }
  pose proof F4 as (I1 & I2 & I3 & I4 & I5 & I6 & I7).
  assert (Hne : pre0 ++ t1 <> []) by (apply app_ne, F0).
  destruct Hc as [-> |[-> ->]].
  - eapply nl_go; [exact F1|apply follows_e|exact I7|]. intros cur' c' N1 N2 N3 N4.
    specialize (N4 Hne _ eq_refl).
    assert (N3' : Nat.eqb cur' (len - 1) = false) by (rewrite N3; pose proof e_not_nil; destruct e; [contradiction|reflexivity]).
    destruct (@list_nl pre0 t1 k1 k q (nlst (length (pre0 ++ t1)) b1) (e ++ e ++ x) cur' c' false F1 F2 (linner_nlst _ F4) eq_refl) as (b2 & (J1 & J2 & J3 & J4 & J5 & J6 & J7) & Eb1);
      [rewrite N1; reflexivity|exact N3'|exact N4|].
    exists b2. split; [rewrite Eb1, N2; reflexivity|].
    eapply nl_go with (pre := (pre0 ++ t1) ++ e) (x := x); [rewrite F1, <- !app_assoc; reflexivity|exact Hx|exact J6|].
    intros cur2 c2 M1 M2 M3 M4.
    destruct (@list_fin (length (((pre0 ++ t1) ++ e) ++ e)) (nlst (length ((pre0 ++ t1) ++ e)) b2) c2 (Nat.eqb cur2 (len - 1)) cur2 k hs q) as (b' & E & R & Q1); auto.
    { rewrite M1. reflexivity. }
    { apply nlst_binv. }
    exists b'. split; [|rewrite app_assoc in Kx; apply Kx; assumption].
    rewrite <- E. apply Hend. exact J1.
  - eapply nl_go with (x := []); [exact F1|exact Hx|exact I7|]. intros cur' c' N1 N2 N3 N4.
    specialize (N4 Hne _ eq_refl).
    destruct (@list_nl pre0 t1 k1 k q (nlst (length (pre0 ++ t1)) b1) (e ++ []) cur' c' true F1 F2 (linner_nlst _ F4) eq_refl) as (b2 & (J1 & J2 & J3 & J4 & J5 & J6 & J7) & Eb1);
      [apply orb_true_r|exact N3|exact N4|].
    destruct (@list_fin (length ((pre0 ++ t1) ++ e)) b2 c' true cur' k hs q) as (b' & E & R & Q1); auto.
    { apply orb_true_r. }
    exists b'. split; [|rewrite app_nil_r in Kx; apply Kx; assumption].
    rewrite Eb1. exact E.
Qed.

(* the same without the line ending of the last line *)
Lemma list_last t ts c k hs q b pre (P : bvars -> Prop) : (Exists newline_byte s \/ e = [LF]) -> t <> [] -> Forall text_line ts -> is_nl c = false ->
  acts ([], []) (removelast (t :: ts) ++ [last (t :: ts) [] ++ [c]]) k -> flushed k hs ->
  s = pre ++ joined e (t :: ts) ++ [c] -> linner (length pre) ([], []) q b ->
  (forall b', rdy b' -> out b' = emit q (EList tag hs) -> P b') ->
  reach (length (pre ++ t)) b P.
Proof.
  intros Hone Ht Hts Hcn Ha Hk Es Hi K.
  assert (X : exists k1, acts ([], []) (removelast (t :: ts)) k1 /\ act k1 (last (t :: ts) [] ++ [c]) k).
  { remember (removelast (t :: ts)) as R. destruct R as [|r0 R].
    - destruct (acts_inv Ha) as (d & D1 & D2). apply acts_nil_inv in D2. rewrite D2 in D1. eexists. split; [constructor|exact D1].
    - destruct (acts_last Ha) as (d & D1 & D2). change (acts ([], []) (removelast ((r0 :: R) ++ [last (t :: ts) [] ++ [c]])) d) in D1.
      change (act d (last ((r0 :: R) ++ [last (t :: ts) [] ++ [c]]) []) k) in D2.
      rewrite removelast_last in D1. rewrite last_last in D2. eauto. }
  destruct X as (k1 & Ha1 & Ha2).
  eapply (@list_lines q ts pre t ([], []) k1 b [c]); [exact Ht|exact Hts|exact Es|discriminate|exact Ha1|exact Hi|].
  intros pre0 t1 b1 F0 F1 Et F4. rewrite Et in Ha2. pose proof F4 as (I1 & I2 & I3 & I4 & I5 & I6 & I7).
  assert (E1 : s = (pre0 ++ t1) ++ [c]) by (rewrite <- F1, <- app_assoc; exact Es).
  eapply last_step; [exact Hone|exact E1|exact Hcn|exact I7|]. intros Hle Hla Hend'.
  destruct (@list_nl pre0 (t1 ++ [c]) k1 k q b1 [] (length (pre0 ++ t1)) c true) as (b2 & (J1 & J2 & J3 & J4 & J5 & J6 & J7) & Eb1); auto.
  { rewrite app_nil_r, app_assoc. exact E1. }
  { apply orb_true_r. }
  { rewrite app_assoc, <- E1. exact Hend'. }
  destruct (@list_fin len b2 c true (length (pre0 ++ t1)) k hs q) as (b' & E & R & Q1); auto.
  { apply orb_true_r. }
  { rewrite E1, !app_length. reflexivity. }
  exists b'. split; [rewrite Eb1; exact E|apply K; assumption].
Qed.

(* items produce the right steps *)
Lemma acts_app a x b y c : acts a x b -> acts b y c -> acts a (x ++ y) c.
Proof. intro H. revert c. induction H; intros d Hd; [exact Hd|]. cbn. econstructor; eauto. Qed.
Lemma more_acts hs : forall more cur, plen > 0 -> (forall y, item (repeat SP plen ++ y) = false) ->
  acts (hs, cur) (map (fun y => repeat SP plen ++ y) more) (hs, cur ++ more).
Proof.
  induction more as [|m more IH]; intros cur Hp Hit; [rewrite app_nil_r; constructor|].
  cbn [map]. econstructor.
  - apply A_cont; [apply Hit|apply starts_with_app].
  - replace (skipn plen (repeat SP plen ++ m)) with m by (rewrite <- (repeat_length SP plen) at 1; rewrite skipn_len; reflexivity).
    replace (cur ++ m :: more) with ((cur ++ [m]) ++ more) by (rewrite <- app_assoc; reflexivity). apply IH; assumption.
Qed.
Definition iinline (it : bytes * bytes * list bytes * bytes) : Prop :=
  let '(p, l, more, h) := it in inline (joined e (l :: more)) = Ok h.
Lemma items_acts : plen > 0 -> (forall y, item (repeat SP plen ++ y) = false) -> forall its it hs cur h0,
  (forall i, In i (it :: its) -> length (item_prefix i) = plen /\ item (item_prefix i ++ item_text i) = true /\ iinline i) ->
  (hs = [] /\ cur = [] \/ cur <> [] /\ inline (joined e cur) = Ok h0) ->
  exists k, acts (hs, cur) (flat_map item_src (it :: its)) k /\
    flushed k ((match cur with [] => hs | _ => hs ++ [h0] end) ++ map item_html (it :: its)).
Proof.
  intros Hp Hit. induction its as [|it2 its IH]; intros it hs cur h0 Hall Hcur.
  - destruct it as [[[p l] more] h]. destruct (Hall _ (or_introl eq_refl)) as (H1 & H2 & H3). cbn in H1, H2, H3.
    set (hs' := match cur with [] => hs | _ => hs ++ [h0] end).
    exists (hs', l :: more). split.
    + cbn [flat_map item_src]. rewrite app_nil_r. unfold item_lines. rewrite H1.
      apply AS_cons with (b := (hs', [skipn plen (p ++ l)])).
      * destruct Hcur as [[-> ->]|[Hc Hh]]; [apply A_first; exact H2|].
        unfold hs'. destruct cur; [contradiction|]. apply A_item; [exact H2|discriminate|exact Hh].
      * rewrite <- H1 at 1. rewrite skipn_len. apply (@more_acts hs' more [l] Hp Hit).
    + split; [discriminate|]. exists h. split; [exact H3|]. cbn. reflexivity.
  - destruct it as [[[p l] more] h]. destruct (Hall _ (or_introl eq_refl)) as (H1 & H2 & H3). cbn in H1, H2, H3.
    set (hs' := match cur with [] => hs | _ => hs ++ [h0] end).
    destruct (IH it2 hs' (l :: more) h) as (k & K1 & K2).
    { intros i Hi. apply Hall. right. exact Hi. }
    { right. split; [discriminate|exact H3]. }
    exists k. split.
    + change (flat_map item_src ((p, l, more, h) :: it2 :: its)) with (item_lines p l more ++ flat_map item_src (it2 :: its)).
      eapply acts_app; [|exact K1]. unfold item_lines. rewrite H1.
      apply AS_cons with (b := (hs', [skipn plen (p ++ l)])).
      * destruct Hcur as [[-> ->]|[Hc Hh]]; [apply A_first; exact H2|].
        unfold hs'. destruct cur; [contradiction|]. apply A_item; [exact H2|discriminate|exact Hh].
      * rewrite <- H1 at 1. rewrite skipn_len. apply (@more_acts hs' more [l] Hp Hit).
    + cbn [map item_html]. cbn [map item_html] in K2. rewrite <- app_assoc in K2. exact K2.
Qed.
End Lists.
End Fwd.
