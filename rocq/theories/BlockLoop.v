(* Runs of the block parser, and a document on which it never stops. *)
From Verif Require Import Base Utils UtilsProofs Toctree Content InlineSpec InlineProofs BlockSpec BlockProofs BlockTerm InlineFwd.
#[local] Arguments B : simpl never.

(* from this point on the loop ends with outcome R *)
Definition leads (rec : bytes -> bytes -> res bytes) (o : bopts) (s : bytes) (cur : nat) (b : bvars) (R : res bvars) : Prop :=
  forall fuel, need (length s) cur b <= fuel -> bloop fuel rec o s (length s) cur b = R.

Lemma leads_step rec o s cur b cur' b' R : cur < length s ->
  iter rec o s (length s) cur b = Ok (cur', b') -> leads rec o s cur' b' R -> leads rec o s cur b R.
Proof.
  intros L E H fuel Hf. destruct (iter_need eq_refl L E) as [N _].
  destruct fuel as [|f].
  - exfalso. unfold need in *. lia.
  - rewrite bloop_S by exact L. rewrite E. cbn [rbind fst snd]. apply H. lia.
Qed.
Lemma leads_stop rec o s cur b : cur < length s ->
  iter rec o s (length s) cur b = OutOfFuel -> leads rec o s cur b OutOfFuel.
Proof.
  intros L E fuel Hf. destruct fuel as [|f].
  - exfalso. unfold need in *. destruct (Nat.eqb cur (length s - 1) && final (b_state b)); lia.
  - rewrite bloop_S by exact L. rewrite E. reflexivity.
Qed.
Lemma leads_end rec o s b : leads rec o s (length s) b (Ok b).
Proof. intros fuel _. apply bloop_end. lia. Qed.
Lemma leads_content f o s le R :
  leads (fun t e => do b <- content_parse f quote_opts t (Some e) ; Ok (b_rv b)) o s 0 (bv0 le) R ->
  content_parse (S f) o s le = R.
Proof.
  intro H. cbn [content_parse]. apply H. pose proof (need_le (length s) 0 (bv0 le)). lia.
Qed.

(* an iteration at a known byte *)
Lemma iter_plain rec o s len cur c b : nth_error s cur = Some c -> is_nl c = false ->
  iter rec o s len cur b = bstep rec o s len cur c b.
Proof. intros Ec Hn. unfold iter. rewrite (crd_at Ec). cbn [rbind]. unfold newline. rewrite Hn. reflexivity. Qed.
Lemma iter_nl rec o s cur c b : nth_error s cur = Some c -> is_nl c = true ->
  (forall d, nth_error s (cur + 1) = Some d -> d = c \/ is_nl d = false) ->
  iter rec o s (length s) cur b = bstep rec o s (length s) cur c (note_le [c] b).
Proof.
  intros Ec Hn Hd. unfold iter. rewrite (crd_at Ec). cbn [rbind]. unfold newline. rewrite Hn.
  destruct (Nat.ltb (cur + 1) (length s)) eqn:L; [|reflexivity]. apply Nat.ltb_lt in L.
  destruct (nth_error s (cur + 1)) as [d|] eqn:E; [|apply nth_error_None in E; lia].
  rewrite (crd_at E). cbn [rbind].
  assert (K : ((c == LF) && (d == CR)) || ((c == CR) && (d == LF)) = false).
  { apply is_nl_iff in Hn. destruct (Hd d eq_refl) as [-> |Hd'].
    - destruct Hn as [-> | ->]; reflexivity.
    - unfold is_nl in Hd'. apply orb_false_iff in Hd'. destruct Hd' as [-> ->]. rewrite !andb_false_r. reflexivity. }
  rewrite K. reflexivity.
Qed.
Lemma iter_pair rec o s cur c d b : nth_error s cur = Some c -> nth_error s (cur + 1) = Some d ->
  newline_byte c -> newline_byte d -> c <> d ->
  iter rec o s (length s) cur b = bstep rec o s (length s) (cur + 1) d (set_real cur (note_le [c; d] b)).
Proof.
  intros Ec Ed Hc Hd Hne. unfold iter. rewrite (crd_at Ec). cbn [rbind]. unfold newline.
  assert (L : cur + 1 < length s) by (apply nth_error_Some; congruence). apply Nat.ltb_lt in L. rewrite L.
  rewrite (crd_at Ed). cbn [rbind].
  destruct Hc as [-> | ->], Hd as [-> | ->]; try congruence; reflexivity.
Qed.
Lemma nth_mid (p : bytes) c r : nth_error (p ++ c :: r) (length p) = Some c.
Proof. apply nth_error_mid. Qed.

(* ------------------------------------------------------------------ *)
(* ** A document that is quoted in itself, forever *)

Definition CRLF : bytes := [CR; LF].
Definition Q : bytes := B "> a" ++ [LF] ++ B "> b" ++ [LF; LF].
Definition P1 : bytes := B "b" ++ [LF; LF].
Inductive Mset : bytes -> Prop :=
| MS_one : Mset CRLF
| MS_nl m : Mset m -> Mset (CR :: LF :: m)
| MS_b m : Mset m -> Mset ("b"%char :: LF :: LF :: m).

Definition clean (s : bytes) : Prop := ~ In NUL s /\ ~ In BSL s.
Lemma inline_clean s a p : clean s -> exists t, inline (dup s a p) = Ok t.
Proof.
  intros [H1 H2]. assert (Hn : no_nul (dup s a p)) by (apply no_nul_dup, H1).
  pose proof (inline_ok Hn) as K. destruct (inline (dup s a p)) as [t| |]; [eauto| |destruct K].
  exfalso. apply K. apply even_wsafe.
  destruct (list_last_inv (dup s a p)) as [->|(r & c & E)]; [reflexivity|].
  rewrite E, odd_tail_snoc. destruct (c == BSL) eqn:Ec; [|reflexivity]. apply eqb_true in Ec. subst c.
  exfalso. apply H2. assert (Hin : In BSL (dup s a p)) by (rewrite E; apply in_or_app; right; left; reflexivity).
  unfold dup in Hin. destruct (Nat.leb a p); [apply in_firstn in Hin|]; exact (in_skipn Hin).
Qed.

(* the parser is between blocks *)
Definition idle (cur : nat) (b : bvars) : Prop :=
  b_state b = BStart /\ b_lines b = [] /\ b_le b = CRLF /\ b_lef b = true /\ b_real b < cur.

Section Loop.
Variables (rec : bytes -> bytes -> res bytes) (o : bopts) (s : bytes).
Hypothesis Hclean : clean s.
Notation L cur b := (leads rec o s cur b OutOfFuel).

Lemma note_idle e cur b : idle cur b -> note_le e b = b.
Proof. intros (_ & _ & _ & H & _). unfold note_le. rewrite H. reflexivity. Qed.

(* a newline between blocks *)
Lemma idle_nl pre c r b : s = pre ++ c :: r -> newline_byte c -> (forall d r', r = d :: r' -> d = c \/ is_nl d = false) ->
  idle (length pre) b ->
  (forall b', idle (length pre + 1) b' -> b_real b' = b_real b -> L (length pre + 1) b') -> L (length pre) b.
Proof.
  intros Es Hc Hr Hi K. assert (Ec : nth_error s (length pre) = Some c) by (rewrite Es; apply nth_mid).
  pose proof Hi as (I1 & I2 & I3 & I4 & I5).
  eapply leads_step; [apply nth_error_Some; congruence| |].
  - rewrite (iter_nl rec o b Ec (proj2 (is_nl_iff c) Hc)).
    + unfold bstep. rewrite (note_idle _ Hi), I1, (proj2 (is_nl_iff c) Hc). reflexivity.
    + intros d Hd. destruct r as [|d' r'].
      * exfalso. rewrite Es, nth_error_app2, Nat.add_comm in Hd by lia. replace (1 + length pre - length pre) with 1 in Hd by lia. discriminate.
      * apply (Hr d r'). f_equal. rewrite Es, nth_error_app2, Nat.add_comm in Hd by lia.
        replace (1 + length pre - length pre) with 1 in Hd by lia. cbn in Hd. congruence.
  - apply K; [|reflexivity]. repeat split; auto. lia.
Qed.
Lemma idle_pair pre c d r b : s = pre ++ c :: d :: r -> newline_byte c -> newline_byte d -> c <> d ->
  idle (length pre) b ->
  (forall b', idle (length pre + 2) b' -> b_real b' = length pre -> L (length pre + 2) b') -> L (length pre) b.
Proof.
  intros Es Hc Hd Hne Hi K. assert (Ec : nth_error s (length pre) = Some c) by (rewrite Es; apply nth_mid).
  assert (Ed : nth_error s (length pre + 1) = Some d).
  { rewrite Es. change (pre ++ c :: d :: r) with (pre ++ [c] ++ d :: r). rewrite app_assoc.
    replace (length pre + 1) with (length (pre ++ [c])) by (rewrite app_length; reflexivity). apply nth_mid. }
  pose proof Hi as (I1 & I2 & I3 & I4 & I5).
  eapply leads_step; [apply nth_error_Some; congruence| |].
  - rewrite (iter_pair rec o b Ec Ed Hc Hd Hne). rewrite (note_idle _ Hi). unfold bstep. bcbn.
    rewrite I1, (proj2 (is_nl_iff d) Hd). cbn [orb]. replace (length pre + 1 + 1) with (length pre + 2) by lia. reflexivity.
  - apply K; [|reflexivity]. unfold idle. bcbn. repeat split; auto. lia.
Qed.

Definition busy (st : bstate) (cur : nat) (b : bvars) : Prop :=
  b_state b = st /\ b_lines b = [] /\ b_le b = CRLF /\ b_lef b = true /\ b_real b < cur.
Lemma note_busy st e cur b : busy st cur b -> note_le e b = b.
Proof. intros (_ & _ & _ & H & _). unfold note_le. rewrite H. reflexivity. Qed.

Lemma not_last (pre : bytes) c d r : s = pre ++ c :: d :: r -> Nat.eqb (length pre) (length s - 1) = false.
Proof. intro Es. apply Nat.eqb_neq. rewrite Es, app_length. cbn [length]. lia. Qed.

(* a byte that starts a paragraph *)
Lemma start_para pre c d r b : s = pre ++ c :: d :: r -> In c (B "ab") -> b_state b = BStart -> b_lines b = [] ->
  b_le b = CRLF -> b_lef b = true -> b_real b < length pre + 1 ->
  (forall b', busy BPara (length pre + 1) b' -> b_real b' = b_real b -> L (length pre + 1) b') -> L (length pre) b.
Proof.
  intros Es Hc I1 I2 I3 I4 I5 K. assert (Ec : nth_error s (length pre) = Some c) by (rewrite Es; apply nth_mid).
  assert (Hn : is_nl c = false) by (destruct Hc as [<-|[<-|[]]]; reflexivity).
  eapply leads_step; [apply nth_error_Some; congruence| |].
  - rewrite (iter_plain rec o (length s) b Ec Hn). unfold bstep. rewrite I1, Hn, (not_last Es). cbn [orb].
    assert (E : (c == "."%char) = false /\ (c == "#"%char) = false /\ (c == "*"%char) = false /\ (c == "+"%char) = false /\
      (c == "-"%char) = false /\ is_digit c = false /\ is_sp c = false /\ (c == "<"%char) = false /\ (c == ">"%char) = false)
      by (destruct Hc as [<-|[<-|[]]]; repeat split).
    destruct E as (-> & -> & -> & -> & -> & -> & -> & -> & ->). cbn [orb andb]. reflexivity.
  - apply K; [|reflexivity]. unfold busy. bcbn. repeat split; auto.
Qed.
Lemma go_para pre c d r b : s = pre ++ c :: d :: r -> is_nl c = false -> busy BPara (length pre) b ->
  (forall b', busy BPara (length pre + 1) b' -> b_real b' = b_real b -> L (length pre + 1) b') -> L (length pre) b.
Proof.
  intros Es Hn Hi K. assert (Ec : nth_error s (length pre) = Some c) by (rewrite Es; apply nth_mid).
  pose proof Hi as (I1 & I2 & I3 & I4 & I5).
  eapply leads_step; [apply nth_error_Some; congruence| |].
  - rewrite (iter_plain rec o (length s) b Ec Hn). unfold bstep. rewrite I1, Hn, (not_last Es). cbn [orb]. reflexivity.
  - apply K; [|reflexivity]. unfold busy. repeat split; auto. lia.
Qed.
Lemma nl_para pre d r b : s = pre ++ LF :: d :: r -> d <> CR -> busy BPara (length pre) b ->
  (forall b', busy BParaEnd (length pre + 1) b' -> b_real b' = b_real b -> L (length pre + 1) b') -> L (length pre) b.
Proof.
  intros Es Hd Hi K. assert (Ec : nth_error s (length pre) = Some LF) by (rewrite Es; apply nth_mid).
  pose proof Hi as (I1 & I2 & I3 & I4 & I5).
  eapply leads_step; [apply nth_error_Some; congruence| |].
  - rewrite (iter_nl rec o b Ec eq_refl), (note_busy _ Hi).
    + unfold bstep. rewrite I1, (not_last Es). change (is_nl LF) with true. cbn [orb]. reflexivity.
    + intros d' Hd'. rewrite Es, nth_error_app2, Nat.add_comm in Hd' by lia. replace (1 + length pre - length pre) with 1 in Hd' by lia.
      cbn in Hd'. injection Hd' as <-. destruct (is_nl d) eqn:E; [|auto]. apply is_nl_iff in E. destruct E; [auto|contradiction].
  - apply K; [|reflexivity]. unfold busy. bcbn. repeat split; auto. lia.
Qed.
Lemma resume_para pre c d r b : s = pre ++ c :: d :: r -> is_nl c = false -> busy BParaEnd (length pre) b ->
  (forall b', busy BPara (length pre + 1) b' -> b_real b' = b_real b -> L (length pre + 1) b') -> L (length pre) b.
Proof.
  intros Es Hn Hi K. assert (Ec : nth_error s (length pre) = Some c) by (rewrite Es; apply nth_mid).
  pose proof Hi as (I1 & I2 & I3 & I4 & I5).
  eapply leads_step; [apply nth_error_Some; congruence| |].
  - rewrite (iter_plain rec o (length s) b Ec Hn). unfold bstep, para_end. rewrite I1, Hn, (not_last Es). cbn [orb]. reflexivity.
  - apply K; [|reflexivity]. unfold busy. bcbn. repeat split; auto. lia.
Qed.
Lemma end_para pre d r b : s = pre ++ LF :: d :: r -> d <> CR -> busy BParaEnd (length pre) b ->
  (forall b', idle (length pre + 1) b' -> b_real b' = b_real b -> L (length pre + 1) b') -> L (length pre) b.
Proof.
  intros Es Hd Hi K. assert (Ec : nth_error s (length pre) = Some LF) by (rewrite Es; apply nth_mid).
  pose proof Hi as (I1 & I2 & I3 & I4 & I5). destruct (inline_clean (b_start b) (b_end b) Hclean) as (t & Et).
  eapply leads_step; [apply nth_error_Some; congruence| |].
  - rewrite (iter_nl rec o b Ec eq_refl), (note_busy _ Hi).
    + unfold bstep, para_end. rewrite I1, (not_last Es). change (is_nl LF) with true. cbn [orb o_desc quote_opts]. rewrite Et. cbn [rbind]. reflexivity.
    + intros d' Hd'. rewrite Es, nth_error_app2, Nat.add_comm in Hd' by lia. replace (1 + length pre - length pre) with 1 in Hd' by lia.
      cbn in Hd'. injection Hd' as <-. destruct (is_nl d) eqn:E; [|auto]. apply is_nl_iff in E. destruct E; [auto|contradiction].
  - apply K; [|bcbn; destruct (o_desc o), (b_desc b); reflexivity].
    unfold idle. bcbn. destruct (o_desc o), (b_desc b); repeat split; auto; bcbn; lia.
Qed.
Lemma end_para2 pre r b : s = pre ++ LF :: CR :: r -> busy BParaEnd (length pre) b ->
  (forall b', idle (length pre + 2) b' -> b_real b' = length pre -> L (length pre + 2) b') -> L (length pre) b.
Proof.
  intros Es Hi K. assert (Ec : nth_error s (length pre) = Some LF) by (rewrite Es; apply nth_mid).
  assert (Ed : nth_error s (length pre + 1) = Some CR).
  { rewrite Es. change (pre ++ LF :: CR :: r) with (pre ++ [LF] ++ CR :: r). rewrite app_assoc.
    replace (length pre + 1) with (length (pre ++ [LF])) by (rewrite app_length; reflexivity). apply nth_mid. }
  pose proof Hi as (I1 & I2 & I3 & I4 & I5). destruct (inline_clean (b_start b) (b_end b) Hclean) as (t & Et).
  eapply leads_step; [apply nth_error_Some; congruence| |].
  - rewrite (@iter_pair rec o s _ LF CR b Ec Ed) by (first [left; reflexivity|right; reflexivity|discriminate]).
    rewrite (note_busy _ Hi). unfold bstep, para_end. bcbn. rewrite I1. cbn [o_desc quote_opts].
    change (is_nl CR) with true. cbn [orb]. rewrite Et. cbn [rbind]. bcbn.
    replace (length pre + 1 + 1) with (length pre + 2) by lia. reflexivity.
  - apply K; [|bcbn; destruct (o_desc o), (b_desc b); reflexivity].
    unfold idle. bcbn. destruct (o_desc o), (b_desc b); repeat split; auto; bcbn; lia.
Qed.

Ltac at_ l := match goal with |- leads _ _ _ ?c _ _ => replace c with (length l) by (rewrite ?app_length; cbn [length]; lia) end.

(* blank lines and one letter paragraphs, up to the next quote *)
Lemma through_m m : Mset m -> forall r,
  (forall pre b, s = pre ++ m ++ ">"%char :: r -> 0 < length pre -> idle (length pre) b ->
     (forall b', idle (length pre + length m) b' -> b_real b' <> 0 -> L (length pre + length m) b') ->
     L (length pre) b) /\
  (forall m' pre b, m = CR :: m' -> s = pre ++ m' ++ ">"%char :: r -> 0 < length pre -> idle (length pre) b -> b_real b <> 0 ->
     (forall b', idle (length pre + length m') b' -> b_real b' <> 0 -> L (length pre + length m') b') ->
     L (length pre) b).
Proof.
  induction 1 as [|m Hm IH|m Hm IH]; intro r.
  - split.
    + intros pre b Es Hp Hi K. eapply (@idle_pair pre CR LF); [exact Es|right; reflexivity|left; reflexivity|discriminate|exact Hi|].
      intros b' Hi' Hr. apply K; [exact Hi'|lia].
    + intros m' pre b E Es Hp Hi Hr K. injection E as <-. cbn [app] in Es.
      eapply (@idle_nl pre LF); [exact Es|left; reflexivity| |exact Hi|].
      * intros d r' E. injection E as <- <-. right. reflexivity.
      * intros b' Hi' Hr'. apply K; [exact Hi'|lia].
  - destruct (IH r) as [IH1 IH2]. split.
    + intros pre b Es Hp Hi K. cbn [app] in Es.
      eapply (@idle_pair pre CR LF); [exact Es|right; reflexivity|left; reflexivity|discriminate|exact Hi|].
      intros b' Hi' Hr. at_ (pre ++ [CR; LF]).
      apply IH1.
      * rewrite Es, <- app_assoc. reflexivity.
      * rewrite app_length. cbn [length]. lia.
      * rewrite app_length. exact Hi'.
      * intros b2 Hi2 Hr2. rewrite app_length in *. cbn [length] in *.
        replace (length pre + 2 + length m) with (length pre + S (S (length m))) in * by lia. apply K; assumption.
    + intros m' pre b E Es Hp Hi Hr K. injection E as <-. cbn [app] in Es.
      assert (Hm0 : (exists m1, m = CR :: m1) \/ exists m1, m = "b"%char :: m1) by (inversion Hm; unfold CRLF; eauto).
      destruct Hm0 as [(m1 & ->)|(m1 & ->)].
      * cbn [app] in Es. eapply (@idle_pair pre LF CR); [exact Es|left; reflexivity|right; reflexivity|discriminate|exact Hi|].
        intros b' Hi' Hr'. at_ (pre ++ [LF; CR]). apply (IH2 m1); [reflexivity| | | |lia|].
        -- rewrite Es, <- app_assoc. reflexivity.
        -- rewrite app_length. cbn [length]. lia.
        -- rewrite app_length. exact Hi'.
        -- intros b2 Hi2 Hr2. rewrite app_length in *. cbn [length] in *.
           replace (length pre + 2 + length m1) with (length pre + S (S (length m1))) in * by lia. apply K; assumption.
      * cbn [app] in Es. eapply (@idle_nl pre LF); [exact Es|left; reflexivity| |exact Hi|].
        { intros d r' E. injection E as <- <-. right. reflexivity. }
        intros b' Hi' Hr'. at_ (pre ++ [LF]). apply IH1.
        -- rewrite Es, <- app_assoc. reflexivity.
        -- rewrite app_length. cbn [length]. lia.
        -- rewrite app_length. exact Hi'.
        -- intros b2 Hi2 Hr2. rewrite app_length in *. cbn [length] in *.
           replace (length pre + 1 + S (length m1)) with (length pre + S (S (length m1))) in * by lia. apply K; assumption.
  - destruct (IH r) as [IH1 IH2]. split; [|intros; discriminate].
    intros pre b Es Hp Hi K. cbn [app] in Es. pose proof Hi as (I1 & I2 & I3 & I4 & I5).
    eapply (@start_para pre); [exact Es|right; left; reflexivity|exact I1|exact I2|exact I3|exact I4|lia|].
    intros b1 H1 R1. at_ (pre ++ ["b"%char]).
    assert (E1 : s = (pre ++ ["b"%char]) ++ LF :: LF :: m ++ ">"%char :: r) by (rewrite Es, <- app_assoc; reflexivity).
    eapply nl_para; [exact E1|discriminate|rewrite app_length; exact H1|].
    intros b2 H2 R2. at_ ((pre ++ ["b"%char]) ++ [LF]).
    assert (E2 : s = ((pre ++ ["b"%char]) ++ [LF]) ++ LF :: m ++ ">"%char :: r) by (rewrite E1, <- !app_assoc; reflexivity).
    assert (Hm0 : (exists m1, m = CR :: m1) \/ exists m1, m = "b"%char :: m1) by (inversion Hm; unfold CRLF; eauto).
    destruct Hm0 as [(m1 & ->)|(m1 & ->)].
    + cbn [app] in E2. eapply end_para2; [exact E2|rewrite app_length; exact H2|].
      intros b3 H3 R3. at_ (((pre ++ ["b"%char]) ++ [LF]) ++ [LF; CR]). apply (IH2 m1); [reflexivity| | | |rewrite R3, !app_length; cbn [length]; lia|].
      * rewrite E2, <- !app_assoc. reflexivity.
      * rewrite app_length. cbn [length]. lia.
      * rewrite app_length. exact H3.
      * intros b4 H4 R4. rewrite !app_length in *. cbn [length] in *.
        replace (length pre + 1 + 1 + 2 + length m1) with (length pre + S (S (S (S (length m1))))) in * by lia. apply K; assumption.
    + cbn [app] in E2. eapply end_para; [exact E2|discriminate|rewrite app_length; exact H2|].
      intros b3 H3 R3. at_ (((pre ++ ["b"%char]) ++ [LF]) ++ [LF]). apply IH1.
      * rewrite E2, <- !app_assoc. reflexivity.
      * rewrite app_length. cbn [length]. lia.
      * rewrite app_length. exact H3.
      * intros b4 H4 R4. rewrite !app_length in *. cbn [length] in *.
        replace (length pre + 1 + 1 + 1 + S (length m1)) with (length pre + S (S (S (S (length m1))))) in * by lia. apply K; assumption.
Qed.

(* the nested document of the two lines of a quote *)
Lemma through_q pre m r b : s = pre ++ Q ++ CR :: m ++ r -> 0 < length pre -> idle (length pre) b -> b_real b <> 0 ->
  (let rest := CR :: m ++ r in
   rec ((B "a" ++ [LF] ++ B "> b" ++ [LF; LF] ++ rest) ++ CRLF ++ (B "b" ++ [LF; LF] ++ rest) ++ CRLF) CRLF = OutOfFuel) ->
  L (length pre) b.
Proof.
  intros Es Hp (I1 & I2 & I3 & I4 & I5) Hr Hrec.
  set (rest := CR :: m ++ r) in *.
  assert (Hlen : length s = length pre + 9 + length rest) by (rewrite Es, !app_length; change (length Q) with 9; lia).
  assert (Hrl : 1 <= length rest) by (subst rest; cbn; lia).
  assert (Hnth : forall i c, nth_error (Q ++ rest) i = Some c -> nth_error s (length pre + i) = Some c).
  { intros i c E. rewrite Es, nth_error_app2 by lia. replace (length pre + i - length pre) with i by lia. exact E. }
  assert (Hlast : forall i, i < 9 -> Nat.eqb (length pre + i) (length s - 1) = false) by (intros; apply Nat.eqb_neq; lia).
  assert (Hd : forall i, b_real b < length pre + i -> dup s (length pre + i) (b_real b) = skipn i (Q ++ rest)).
  { intros i Hi. unfold dup. replace (Nat.leb (length pre + i) (b_real b)) with false by (symmetry; apply Nat.leb_gt; lia).
    rewrite Es, skipn_app, (skipn_all2 pre) by lia. cbn [app]. f_equal. lia. }
  set (b0 := b) in *.
  (* > *)
  eapply leads_step with (cur' := length pre + 1) (b' := set_start2 (length pre) (set_state BQuote (set_start (length pre) b0))).
  { lia. }
  { pose proof (Hnth 0 ">"%char eq_refl) as E. rewrite Nat.add_0_r in E. rewrite (iter_plain rec o (length s) b0 E eq_refl).
    unfold bstep. rewrite I1. pose proof (Hlast 0 ltac:(lia)) as El. rewrite Nat.add_0_r in El. rewrite El. reflexivity. }
  (* blank *)
  set (b1 := set_start2 _ _).
  eapply leads_step with (cur' := length pre + 2) (b' := b1).
  { lia. }
  { rewrite (iter_plain rec o (length s) b1 (Hnth 1 SP eq_refl) eq_refl). unfold bstep, b1. bcbn.
    replace (length pre + 1 + 1) with (length pre + 2) by lia. reflexivity. }
  (* a *)
  eapply leads_step with (cur' := length pre + 3) (b' := set_prefix (Some (B "> ")) (set_state BQuoteStart b1)).
  { lia. }
  { rewrite (iter_plain rec o (length s) b1 (Hnth 2 "a"%char eq_refl) eq_refl). unfold bstep, b1. bcbn.
    change (is_sp "a") with false. cbn match. replace (length pre + 2 + 1) with (length pre + 3) by lia.
    replace (dup s (length pre) (length pre + 2)) with (B "> "); [reflexivity|].
    unfold dup. replace (Nat.leb (length pre) (length pre + 2)) with true by (symmetry; apply Nat.leb_le; lia).
    replace (length pre + 2 - length pre) with 2 by lia.
    rewrite Es, skipn_app, skipn_all, Nat.sub_diag. reflexivity. }
  set (b2 := set_prefix _ _).
  assert (N2 : forall e, note_le e b2 = b2) by (intro e; unfold note_le; change (b_lef b2) with (b_lef b0); rewrite I4; reflexivity).
  (* LF *)
  eapply leads_step with (cur' := length pre + 4)
    (b' := set_state BQuoteEnd (set_lines [B "a" ++ [LF] ++ B "> b" ++ [LF; LF] ++ rest] (set_end (b_real b0) b2))).
  { lia. }
  { rewrite (iter_nl rec o b2 (Hnth 3 LF eq_refl) eq_refl), N2.
    2:{ intros d Hd'. replace (length pre + 3 + 1) with (length pre + 4) in Hd' by lia.
        rewrite (Hnth 4 ">"%char eq_refl) in Hd'. injection Hd' as <-. right. reflexivity. }
    unfold bstep. change (b_state b2) with BQuoteStart. cbn match.
    rewrite (Hlast 3) by lia. change (is_nl LF || false) with true. cbn match.
    change (b_prefix b2) with (Some (B "> ")). cbn match.
    unfold line_end. rewrite (Hlast 3) by lia. cbn [andb].
    change (b_real b2) with (b_real b0). rewrite (proj2 (Nat.eqb_neq _ _) Hr).
    change (b_start2 (set_end (b_real b0) b2)) with (length pre).
    change (b_end (set_end (b_real b0) b2)) with (b_real b0).
    pose proof (Hd 0 ltac:(fold b0; lia)) as E. rewrite Nat.add_0_r in E. rewrite E. cbn [skipn].
    change (starts_with (Q ++ rest) (B "> ")) with true. cbn match.
    change (b_lines (set_end (b_real b0) b2)) with (b_lines b0). rewrite I2.
    replace (length pre + 3 + 1) with (length pre + 4) by lia. reflexivity. }
  set (b3 := set_state _ _).
  (* > *)
  eapply leads_step with (cur' := length pre + 5) (b' := set_start2 (length pre + 4) (set_state BQuoteStart b3)).
  { lia. }
  { rewrite (iter_plain rec o (length s) b3 (Hnth 4 ">"%char eq_refl) eq_refl). unfold bstep. change (b_state b3) with BQuoteEnd.
    cbn match. unfold quote_end. rewrite (Hlast 4) by lia. change (is_nl ">" || false) with false. cbn match.
    replace (length pre + 4 + 1) with (length pre + 5) by lia. reflexivity. }
  set (b4 := set_start2 _ _).
  assert (N4 : forall e, note_le e b4 = b4) by (intro e; unfold note_le; change (b_lef b4) with (b_lef b0); rewrite I4; reflexivity).
  (* blank, b *)
  eapply leads_step with (cur' := length pre + 6) (b' := b4).
  { lia. }
  { rewrite (iter_plain rec o (length s) b4 (Hnth 5 SP eq_refl) eq_refl). unfold bstep. change (b_state b4) with BQuoteStart.
    cbn match. rewrite (Hlast 5) by lia. replace (length pre + 6) with (length pre + 5 + 1) by lia. reflexivity. }
  eapply leads_step with (cur' := length pre + 7) (b' := b4).
  { lia. }
  { rewrite (iter_plain rec o (length s) b4 (Hnth 6 "b"%char eq_refl) eq_refl). unfold bstep. change (b_state b4) with BQuoteStart.
    cbn match. rewrite (Hlast 6) by lia. replace (length pre + 7) with (length pre + 6 + 1) by lia. reflexivity. }
  (* LF *)
  eapply leads_step with (cur' := length pre + 8)
    (b' := set_state BQuoteEnd (set_lines [B "a" ++ [LF] ++ B "> b" ++ [LF; LF] ++ rest; B "b" ++ [LF; LF] ++ rest] (set_end (b_real b0) b4))).
  { lia. }
  { rewrite (iter_nl rec o b4 (Hnth 7 LF eq_refl) eq_refl), N4.
    2:{ intros d Hd'. replace (length pre + 7 + 1) with (length pre + 8) in Hd' by lia.
        rewrite (Hnth 8 LF eq_refl) in Hd'. injection Hd' as <-. left. reflexivity. }
    unfold bstep. change (b_state b4) with BQuoteStart. cbn match.
    rewrite (Hlast 7) by lia. change (is_nl LF || false) with true. cbn match.
    change (b_prefix b4) with (Some (B "> ")). cbn match.
    unfold line_end. rewrite (Hlast 7) by lia. cbn [andb].
    change (b_real b4) with (b_real b0). rewrite (proj2 (Nat.eqb_neq _ _) Hr).
    change (b_start2 (set_end (b_real b0) b4)) with (length pre + 4).
    change (b_end (set_end (b_real b0) b4)) with (b_real b0).
    rewrite (Hd 4) by (fold b0; lia).
    change (skipn 4 (Q ++ rest)) with (B "> b" ++ [LF; LF] ++ rest).
    change (starts_with (B "> b" ++ [LF; LF] ++ rest) (B "> ")) with true. cbn match.
    replace (length pre + 7 + 1) with (length pre + 8) by lia. reflexivity. }
  set (b5 := set_state _ _).
  assert (N5 : forall e, note_le e b5 = b5) by (intro e; unfold note_le; change (b_lef b5) with (b_lef b0); rewrite I4; reflexivity).
  apply leads_stop; [lia|].
  rewrite (@iter_pair rec o s _ LF CR b5 (Hnth 8 LF eq_refl));
    [|replace (length pre + 8 + 1) with (length pre + 9) by lia; exact (Hnth 9 CR eq_refl)|left; reflexivity|right; reflexivity|discriminate].
  rewrite N5. unfold bstep. change (b_state (set_real (length pre + 8) b5)) with BQuoteEnd. cbn match.
  unfold quote_end. change (is_nl CR) with true. cbn [orb].
  change (b_le (set_real (length pre + 8) b5)) with (b_le b0). rewrite I3.
  change (b_lines (set_real (length pre + 8) b5)) with [B "a" ++ [LF] ++ B "> b" ++ [LF; LF] ++ rest; B "b" ++ [LF; LF] ++ rest].
  unfold lines_text. cbn [flat_map]. rewrite app_nil_r, <- app_assoc. rewrite Hrec. reflexivity.
Qed.
End Loop.

Fixpoint crlfs (k : nat) : bytes := match k with 0 => [] | S k => CRLF ++ crlfs k end.
Lemma crlfs_S k : crlfs (S k) = crlfs k ++ CRLF.
Proof. induction k as [|k IH]; [reflexivity|]. change (crlfs (S (S k))) with (CRLF ++ crlfs (S k)). rewrite IH at 1. reflexivity. Qed.

(* the documents met on the way down *)
Definition nested (m1 m2 : bytes) (k : nat) : bytes :=
  (B "a" ++ [LF] ++ B "> b" ++ [LF; LF] ++ m1) ++ Q ++ m2 ++ Q ++ crlfs k.

Lemma mset_clean m : Mset m -> clean m.
Proof.
  unfold clean. induction 1 as [|m Hm [H1 H2]|m Hm [H1 H2]]; split; intro H;
    repeat (destruct H as [H|H]; [discriminate H|]); auto.
Qed.
Lemma clean_app x y : clean x -> clean y -> clean (x ++ y).
Proof. intros [H1 H2] [H3 H4]. split; intro H; apply in_app_or in H; tauto. Qed.
Lemma crlfs_clean k : clean (crlfs k).
Proof. induction k; [split; intros []|]. apply clean_app; [|assumption]. apply mset_clean, MS_one. Qed.
Lemma q_clean : clean Q.
Proof. split; intro H; unfold Q in H; cbn in H; repeat (destruct H as [H|H]; [discriminate H|]); exact H. Qed.
Lemma mset_crlfs k m : Mset m -> Mset (crlfs k ++ m).
Proof. induction k; intro H; [exact H|]. apply MS_nl. auto. Qed.
Lemma mset_head m : Mset m -> (exists m1, m = CR :: m1) \/ exists m1, m = "b"%char :: m1.
Proof. intro Hm. inversion Hm; unfold CRLF; eauto. Qed.

Ltac at2 l := match goal with |- leads _ _ _ ?c _ _ => replace c with (length l) by (rewrite ?app_length; cbn [length]; lia) end.
Lemma nested_forever f : forall m1 m2 k, Mset m1 -> Mset m2 -> (exists m, m2 = CR :: m) ->
  content_parse f quote_opts (nested m1 m2 k) (Some CRLF) = OutOfFuel.
Proof.
  induction f as [|f IH]; intros m1 m2 k H1 H2 Hcr; [reflexivity|]. apply leads_content.
  set (rec := fun t e => _). set (s := nested m1 m2 k).
  assert (Hc : clean s).
  { unfold s, nested. repeat apply clean_app; auto using mset_clean, q_clean, crlfs_clean;
      split; intro H; cbn in H; repeat (destruct H as [H|H]; [discriminate H|]); exact H. }
  (* the letters *)
  assert (Es : s = [] ++ "a"%char :: LF :: ">"%char :: SP :: "b"%char :: LF :: LF :: m1 ++ Q ++ m2 ++ Q ++ crlfs k)
    by (unfold s, nested; cbn; rewrite <- ?app_assoc; reflexivity).
  change 0 with (length (@nil ascii)).
  eapply start_para; [exact Es|left; reflexivity|reflexivity|reflexivity|reflexivity|reflexivity|cbn; lia|].
  intros b1 B1 R1. at2 ["a"%char].
  assert (E1 : s = ["a"%char] ++ LF :: ">"%char :: SP :: "b"%char :: LF :: LF :: m1 ++ Q ++ m2 ++ Q ++ crlfs k) by exact Es.
  eapply nl_para; [exact E1|discriminate|exact B1|]. intros b2 B2 R2. at2 ["a"%char; LF].
  assert (E2 : s = ["a"%char; LF] ++ ">"%char :: SP :: "b"%char :: LF :: LF :: m1 ++ Q ++ m2 ++ Q ++ crlfs k) by exact Es.
  eapply resume_para; [exact E2|reflexivity|exact B2|]. intros b3 B3 R3. at2 ["a"%char; LF; ">"%char].
  assert (E3 : s = ["a"%char; LF; ">"%char] ++ SP :: "b"%char :: LF :: LF :: m1 ++ Q ++ m2 ++ Q ++ crlfs k) by exact Es.
  eapply go_para; [exact E3|reflexivity|exact B3|]. intros b4 B4 R4. at2 ["a"%char; LF; ">"%char; SP].
  assert (E4 : s = ["a"%char; LF; ">"%char; SP] ++ "b"%char :: LF :: LF :: m1 ++ Q ++ m2 ++ Q ++ crlfs k) by exact Es.
  eapply go_para; [exact E4|reflexivity|exact B4|]. intros b5 B5 R5. at2 ["a"%char; LF; ">"%char; SP; "b"%char].
  assert (E5 : s = ["a"%char; LF; ">"%char; SP; "b"%char] ++ LF :: LF :: m1 ++ Q ++ m2 ++ Q ++ crlfs k) by exact Es.
  eapply nl_para; [exact E5|discriminate|exact B5|]. intros b6 B6 R6.
  set (p6 := ["a"%char; LF; ">"%char; SP; "b"%char; LF]). change (leads rec quote_opts s (length p6) b6 OutOfFuel).
  assert (E6 : s = p6 ++ LF :: m1 ++ Q ++ m2 ++ Q ++ crlfs k) by exact Es.
  (* from the first blank line on *)
  set (p7 := p6 ++ [LF]).
  assert (E7 : s = (p7 ++ m1) ++ Q ++ m2 ++ Q ++ crlfs k) by (unfold p7; rewrite E6, <- !app_assoc; reflexivity).
  assert (Kq : forall b', idle (length p7 + length m1) b' -> b_real b' <> 0 -> leads rec quote_opts s (length p7 + length m1) b' OutOfFuel).
  { intros b' Hi' Hr'. at2 (p7 ++ m1). destruct Hcr as (m & ->).
    eapply (@through_q rec quote_opts s (p7 ++ m1) m (Q ++ crlfs k)).
    - rewrite E7. reflexivity.
    - rewrite app_length. cbn. lia.
    - rewrite app_length. exact Hi'.
    - exact Hr'.
    - cbv zeta. unfold rec.
      match goal with |- (do b <- content_parse _ _ ?x _ ; _) = _ =>
        replace x with (nested (CR :: m) (crlfs (S k) ++ "b"%char :: LF :: LF :: CR :: m) (S k)) end.
      + rewrite IH; [reflexivity|exact H2|apply mset_crlfs, MS_b; exact H2|]. eexists. reflexivity.
      + unfold nested. rewrite !crlfs_S. rewrite <- ?app_assoc. cbn [app]. rewrite <- ?app_assoc. cbn [app]. rewrite <- ?app_assoc. cbn [app]. reflexivity. }
  destruct (through_m rec quote_opts Hc H1 (skipn 1 Q ++ m2 ++ Q ++ crlfs k)) as [T1 T2].
  destruct (mset_head H1) as [(m & E)|(m & E)].
  - subst m1. cbn [app] in E6. eapply end_para2; [exact Hc|exact E6|exact B6|]. intros b7 B7 R7.
    at2 (p6 ++ [LF; CR]). apply (T2 m); [reflexivity| | | | |].
    + rewrite E6, <- app_assoc. reflexivity.
    + rewrite app_length. cbn. lia.
    + rewrite app_length. exact B7.
    + rewrite R7. discriminate.
    + intros b8 B8 R8. assert (E : length (p6 ++ [LF; CR]) + length m = length p7 + length (CR :: m)).
      { unfold p7. rewrite !app_length. cbn [length]. lia. } rewrite E in *. apply Kq; assumption.
  - subst m1. cbn [app] in E6. eapply end_para; [exact Hc|exact E6|discriminate|exact B6|]. intros b7 B7 R7.
    change (leads rec quote_opts s (length p7) b7 OutOfFuel). apply T1.
    + rewrite E7, <- app_assoc. reflexivity.
    + unfold p7. rewrite app_length. cbn. lia.
    + exact B7.
    + exact Kq.
Qed.

(* the document itself: x, a blank line, a quote, a blank line, a quote *)
Definition forever : bytes := B "x" ++ CRLF ++ CRLF ++ Q ++ CRLF ++ Q.
Theorem content_forever o : forall fuel, content_parse fuel o forever None = OutOfFuel.
Proof.
  intros [|f]; [reflexivity|]. pose proof (nested_forever f 1 MS_one (MS_nl (MS_b MS_one)) (ex_intro _ _ eq_refl)) as H.
  apply leads_content. set (rec := fun t e => _).
  assert (Hr : rec (nested CRLF (CR :: LF :: "b"%char :: LF :: LF :: CRLF) 1) CRLF = OutOfFuel) by (unfold rec; rewrite H; reflexivity).
  clearbody rec.
  set (b1 := set_state BPara (bv0 None)).
  eapply leads_step with (cur' := 1) (b' := b1); [vm_compute; lia|destruct o; vm_compute; reflexivity|].
  set (b2 := BV BParaEnd 0 0 1 0 1 0 None 0 NUL [] (L2 []) [] [CR; LF] true 0 None None []).
  eapply leads_step with (cur' := 3) (b' := b2); [vm_compute; lia|destruct o; vm_compute; reflexivity|].
  set (d := if o_desc o then Some (B "x") else None).
  set (b3 := BV BStart 4 0 1 0 3 0 None 0 NUL [] (L2 []) (B "<p>x</p>" ++ CRLF) [CR; LF] true 0 None d []).
  eapply leads_step with (cur' := 5) (b' := b3).
  { vm_compute; lia. }
  { destruct o as [? ? [] ?]; vm_compute; reflexivity. }
  apply (@through_q rec o forever (B "x" ++ CRLF ++ CRLF) [LF] Q).
  - reflexivity.
  - vm_compute. lia.
  - repeat split. vm_compute. lia.
  - discriminate.
  - exact Hr.
Qed.
