(* The block parser terminates on documents whose line endings all have the same two bytes. *)
From Verif Require Import Base Utils UtilsProofs Toctree Content InlineSpec InlineProofs BlockSpec BlockProofs BlockTerm PairSpec.
#[local] Arguments B : simpl never.

Definition nonnl (l : bytes) : Prop := Forall (fun c => is_nl c = false) l.

Lemma flush_N b : no_nul (b_le b) -> l2_ok (b_lines2 b) ->
  match flush_item b with
  | Ok b' => l2_ok (b_lines2 b') /\ b_state b' = b_state b | UB => True | OutOfFuel => False end.
Proof.
  intros E H2. unfold flush_item. destruct (b_lines2 b) as [[|y l]|] eqn:E2; auto.
  - rewrite E2. auto.
  - destruct (inline _) eqn:Ei; cbn [rbind]; bcbn; auto.
    + split; [constructor|reflexivity].
    + revert Ei. apply inline_fuel. apply join_no_nul; [exact E|exact H2].
Qed.
Lemma push_N t b : no_nul t -> l2_ok (b_lines2 b) ->
  match push2 t b with
  | Ok b' => l2_ok (b_lines2 b') /\ b_state b' = b_state b | UB => True | OutOfFuel => False end.
Proof.
  intros Ht H2. unfold push2. destruct (b_lines2 b) as [l|]; bcbn; auto. split; [|reflexivity].
  apply Forall_app. split; [exact H2|]. constructor; auto.
Qed.

Lemma sw_spec' (t p : bytes) : starts_with t p = true -> exists z, t = p ++ z.
Proof.
  revert t. induction p as [|c p IH]; intros t H; [exists t; reflexivity|]. destruct t as [|d t]; [discriminate|]. cbn in H.
  apply andb_true_iff in H. destruct H as [H1 H2]. destruct (IH t H2) as (z & ->). exists z. apply eqb_true in H1. subst. reflexivity.
Qed.
Section Pair.
Variables (x y : ascii) (s : bytes) (len : nat) (rec : bytes -> bytes -> res bytes) (o : bopts).
Hypothesis Hx : newline_byte x.
Hypothesis Hy : newline_byte y.
Hypothesis Hxy : x <> y.
Hypothesis Hlen : len = length s.
Hypothesis Hnul : no_nul s.

(* a text of line endings of two bytes, or one that begins with half of one *)
Definition halved (t : bytes) : Prop := paired x y t \/ exists r, t = y :: r /\ paired x y r.
Hypothesis Hrec : forall t, cnt t < cnt s -> no_nul t ->
  (halved t -> rec t [x; y] <> OutOfFuel) /\ (only_nl LF t -> rec t [LF] <> OutOfFuel).

Definition good (ls : list bytes) : Prop := Forall nonnl ls \/ exists w, ls = [y :: w] /\ nonnl w.
(* the lines of a quote with the mark [p] *)
Definition kept (p : bytes) (ls : list bytes) : Prop := Forall nonnl ls \/ (In x p /\ good ls).
Definition pstate (cur : nat) (b : bvars) : Prop :=
  match b_state b with
  | BQuote => b_lines b = [] /\ b_start2 b = b_start b /\ b_start b < cur /\ nth_error s (b_start b) = Some ">"%char /\
      nonnl (sub s (b_start b) cur)
  | BQuoteStart => exists p, b_prefix b = Some (">"%char :: p) /\ b_start2 b < cur /\
      incl (concat (b_lines b)) s /\
      cnt (concat (b_lines b)) + length (b_lines b) + cnt (skipn (b_start2 b) s) <= cnt s /\
      ((nonnl (sub s (b_start2 b) cur) /\ kept p (b_lines b)) \/
       (b_lines b = [] /\ In x p /\ exists w, sub s (b_start2 b) cur = (">"%char :: p) ++ y :: w /\ nonnl w))
  | BQuoteEnd => exists p, b_prefix b = Some (">"%char :: p) /\ b_lines b <> [] /\
      incl (concat (b_lines b)) s /\
      cnt (concat (b_lines b)) + length (b_lines b) + cnt (skipn cur s) <= cnt s /\ kept p (b_lines b)
  | BCodeStart | BCodeEnd | BUlStart | BUlEnd | BOlStart | BOlEnd => True
  | _ => b_lines b = []
  end.

Lemma nonnl_paired l r : nonnl l -> paired x y r -> paired x y (l ++ r).
Proof.
  intros H Hr. induction H as [|c l Hc H IH]; [exact Hr|]. cbn [app]. constructor; [|exact IH].
  intro K. apply is_nl_iff in K. congruence.
Qed.
Lemma good_halved ls : good ls -> halved (lines_text [x; y] ls).
Proof.
  unfold lines_text. intros [H|(w & -> & H)].
  - left. induction H as [|l ls Hl H IH]; [constructor|]. cbn [flat_map]. rewrite <- app_assoc. apply nonnl_paired; [exact Hl|].
    cbn [app]. apply Pr_end. exact IH.
  - right. cbn [flat_map]. rewrite app_nil_r. exists (w ++ [x; y]). split; [reflexivity|]. apply nonnl_paired; [exact H|].
    apply Pr_end. constructor.
Qed.
Lemma cnt_text e l : cnt e = 0 -> cnt (lines_text e l) = cnt (concat l).
Proof.
  intro He. induction l as [|z l IH]; [reflexivity|]. unfold lines_text in *. cbn [flat_map concat].
  rewrite !cnt_app, IH. lia.
Qed.
Lemma cnt_xy : cnt [x; y] = 0.
Proof. destruct Hx as [-> | ->], Hy as [-> | ->]; reflexivity. Qed.
Lemma xy_no_nul : no_nul [x; y].
Proof. intros [K|[K|[]]]; [exact (nl_no_nul Hx K)|exact (nl_no_nul Hy K)]. Qed.
Lemma no_nul_lines (e : bytes) l : no_nul e -> incl (concat l) s -> no_nul (lines_text e l).
Proof.
  intros He Hi K. unfold lines_text in K. apply in_flat_map in K. destruct K as (z & Hz & K). apply in_app_or in K.
  destruct K as [K|K]; [|exact (He K)]. apply Hnul, Hi, in_concat. eauto.
Qed.

Lemma quote_end_P cur c last b : cur < len -> nth_error s cur = Some c -> last = Nat.eqb cur (len - 1) ->
  (b_lef b = true -> b_le b = [x; y]) -> (b_lef b = false -> b_le b = [LF] /\ nonnl (firstn (cur + 1) s)) ->
  forall p, b_prefix b = Some (">"%char :: p) -> b_lines b <> [] -> incl (concat (b_lines b)) s ->
  cnt (concat (b_lines b)) + length (b_lines b) <= cnt s ->
  (last = false -> cnt (concat (b_lines b)) + length (b_lines b) + cnt (skipn cur s) <= cnt s) -> kept p (b_lines b) -> l2_ok (b_lines2 b) ->
  match quote_end rec cur c last b with
  | Ok (cur', b') => l2_ok (b_lines2 b') /\ (cur' < len -> pstate cur' b')
  | UB => True | OutOfFuel => False end.
Proof.
  intros Lc Ec El Hl Hf p Hp Hne Hi Hcnt0 Hcnt Hg H2. unfold quote_end. destruct (is_nl c || last) eqn:Eol.
  - assert (Hc : cnt (concat (b_lines b)) < cnt s) by (assert (length (b_lines b) <> 0) by (destruct (b_lines b); [congruence|discriminate]); lia).
    destruct (rec _ _) eqn:Er; cbn [rbind]; bcbn; auto; [split; [exact H2|intros; reflexivity]|].
    destruct (b_lef b).
    + rewrite (Hl eq_refl) in Er. revert Er. apply Hrec; [rewrite (cnt_text _ cnt_xy); exact Hc|apply no_nul_lines; [exact xy_no_nul|exact Hi]|].
      apply good_halved. destruct Hg as [Hg|[_ Hg]]; [left|]; exact Hg.
    + destruct (Hf eq_refl) as [Ele Hn]. rewrite Ele in Er. revert Er.
      assert (Hnc : is_nl c = false).
      { unfold nonnl in Hn. rewrite Forall_forall in Hn. apply Hn. apply (nth_error_In (firstn (cur + 1) s) cur). clear -Ec. revert cur Ec. induction s as [|d r IH]; intros [|k] Ec; cbn in *; auto; discriminate. }
      rewrite Hnc in Eol. cbn [orb] in Eol. subst last. apply Nat.eqb_eq in Eol.
      rewrite firstn_all2 in Hn by lia.
      apply Hrec; [rewrite cnt_text by reflexivity; exact Hc|apply no_nul_lines; [intros [K|[]]; discriminate K|exact Hi]|].
      intros d Hd Nd. apply lines_text_in in Hd. destruct Hd as [Hd|[Hd|[]]]; [|auto].
      unfold nonnl in Hn. rewrite Forall_forall in Hn. rewrite (Hn d (Hi _ Hd)) in Nd. discriminate.
  - bcbn. split; [exact H2|]. intro L. unfold pstate. bcbn. apply orb_false_iff in Eol. destruct Eol as [En El'].
    exists p. split; [exact Hp|]. split; [lia|]. split; [exact Hi|]. split; [apply Hcnt, El'|].
    left. split.
    + replace (sub s cur (cur + 1)) with [c]; [constructor; [exact En|constructor]|]. rewrite (@sub_snoc s cur cur c (le_n _) Ec).
      unfold sub. rewrite Nat.sub_diag. reflexivity.
    + exact Hg.
Qed.

Lemma list_end_P tag again cur c last b : no_nul (b_le b) -> l2_ok (b_lines2 b) -> In again [BUlStart; BOlStart] ->
  match list_end tag again cur c last b with
  | Ok (cur', b') => l2_ok (b_lines2 b') /\ (cur' < len -> pstate cur' b')
  | UB => True | OutOfFuel => False end.
Proof.
  intros E H2 Ha. unfold list_end. destruct (is_nl c || last).
  - pose proof (flush_N E H2) as K. destruct (flush_item b); cbn [rbind] in *; auto.
    bcbn. destruct K as [K _]. split; auto. intros; reflexivity.
  - bcbn. split; auto. intros _. unfold pstate. bcbn. destruct Ha as [<-|[<-|[]]]; exact I.
Qed.
Lemma list_start_P item plen tag again endst cur c last b :
  no_nul (b_le b) -> l2_ok (b_lines2 b) ->
  In again [BUlStart; BOlStart] -> In endst [BUlEnd; BOlEnd] -> In (b_state b) [BUlStart; BOlStart] ->
  match list_start item plen tag again endst s len cur c last b with
  | Ok (cur', b') => l2_ok (b_lines2 b') /\ (cur' < len -> pstate cur' b')
  | UB => True | OutOfFuel => False end.
Proof.
  intros E H2 Ha He Hst. unfold list_start.
  assert (HE : forall cur b', b_state b' = endst -> pstate cur b').
  { intros cu b' Eb. unfold pstate. rewrite Eb. destruct He as [<-|[<-|[]]]; exact I. }
  assert (HA : forall cur b', b_state b' = b_state b -> pstate cur b').
  { intros cu b' Eb. unfold pstate. rewrite Eb. destruct Hst as [<-|[<-|[]]]; exact I. }
  destruct (is_nl c || last); [|split; [exact H2|intros _; apply HA; reflexivity]].
  set (b1 := set_end _ b). set (t := dup s (b_start2 b1) (b_end b1)).
  assert (Hn : no_nul (skipn plen t)) by (apply no_nul_skipn, no_nul_dup, Hnul).
  assert (FIN : forall b2 : bvars, no_nul (b_le b2) -> l2_ok (b_lines2 b2) ->
    match (let b := set_state endst b2 in
           if last then list_end tag again cur c last b else Ok (cur + 1, b)) with
    | Ok (cur', b') => l2_ok (b_lines2 b') /\ (cur' < len -> pstate cur' b') | UB => True | OutOfFuel => False end).
  { intros b2 E2 L2. cbn zeta. destruct last.
    - apply list_end_P; auto.
    - split; [exact L2|]. intros _. apply HE. reflexivity. }
  destruct (item t).
  - pose proof (@flush_N b1 E H2) as K. destruct (flush_item b1) as [b2| |] eqn:Ef; cbn [rbind]; auto.
    destruct K as [K1 K2]. apply flush_framed in Ef.
    pose proof (push_N Hn K1) as P. destruct (push2 _ b2) as [b3| |] eqn:Ep; cbn [rbind]; auto.
    apply push2_framed in Ep. apply FIN; [|apply P]. destruct Ef as (_ & Ef & _). destruct Ep as (_ & Ep & _).
    rewrite Ep, Ef. exact E.
  - destruct (starts_with t _).
    + pose proof (@push_N (skipn plen t) b1 Hn H2) as P. destruct (push2 _ b1) as [b3| |] eqn:Ep; cbn [rbind]; auto.
      apply push2_framed in Ep. apply FIN; [|apply P]. destruct Ep as (_ & Ep & _). rewrite Ep. exact E.
    + unfold drop_items. subst b1. bcbn. destruct (b_lines2 b) as [[|z l]|] eqn:E2; cbn [rbind]; auto;
        destruct last; bcbn; rewrite ?E2; repeat split; auto.
Qed.

Ltac done := split; [assumption|intros _; unfold pstate; bcbn; repeat match goal with H : b_state _ = _ |- _ => rewrite H end; auto].

Lemma nonnl_skipn n l : nonnl l -> nonnl (skipn n l).
Proof. intro H. apply Forall_forall. intros c Hc. unfold nonnl in H. rewrite Forall_forall in H. apply H. exact (in_skipn Hc). Qed.
Lemma x_nl : is_nl x = true.
Proof. apply is_nl_iff, Hx. Qed.

(* [cur]: the byte looked at, the second one of a line ending *)
Lemma bstep_P cur c b : cur < len -> nth_error s cur = Some c ->
  (is_nl c = false /\ pstate cur b \/ c = y /\ 0 < cur /\ nth_error s (cur - 1) = Some x /\ b_real b = cur - 1 /\ pstate (cur - 1) b) ->
  (b_lef b = true -> b_le b = [x; y]) -> (b_lef b = false -> b_le b = [LF] /\ nonnl (firstn (cur + 1) s)) -> l2_ok (b_lines2 b) ->
  match bstep rec o s len cur c b with
  | Ok (cur', b') => l2_ok (b_lines2 b') /\ (cur' < len -> cur' = cur + 1 -> pstate cur' b') | UB => True | OutOfFuel => False end.
Proof.
  intros Lc Ec HT Hl Hf H2. unfold bstep.
  assert (Nle : no_nul (b_le b)).
  { destruct (b_lef b); [rewrite (Hl eq_refl); exact xy_no_nul|]. destruct (Hf eq_refl) as [-> _]. intros [K|[]]; discriminate K. }
  set (last := Nat.eqb cur (len - 1)).
  assert (GEN : forall r, match r with
    | Ok (cur', b') => l2_ok (b_lines2 b') /\ (cur' < len -> pstate cur' b') | UB => True | OutOfFuel => False end ->
    match r with
    | Ok (cur', b') => l2_ok (b_lines2 b') /\ (cur' < len -> cur' = cur + 1 -> pstate cur' b') | UB => True | OutOfFuel => False end).
  { intros [(cu & b')| |] K; auto. destruct K; split; auto. }
  assert (PE : forall b' : bvars, b_lines b' = [] -> l2_ok (b_lines2 b') ->
    match para_end o s cur c last b' with
    | Ok (cur', b') => l2_ok (b_lines2 b') /\ (cur' < len -> pstate cur' b') | UB => True | OutOfFuel => False end).
  { intros b' E0 L0. unfold para_end. destruct (is_nl c || last); [|bcbn; split; auto; intros _; unfold pstate; bcbn; auto].
    destruct (inline _) eqn:Ei; cbn [rbind]; auto.
    - destruct (o_desc o), (b_desc b'); bcbn; split; auto; intros _; unfold pstate; bcbn; auto.
    - revert Ei. apply inline_fuel, no_nul_dup, Hnul. }
  assert (HTT : forall b' : bvars, b_lines b' = [] -> l2_ok (b_lines2 b') -> b_state b' = BHeaderTitle \/ b_state b' = BHeaderTitleStart ->
    match header_title o s len cur c last b' with
    | Ok (cur', b') => l2_ok (b_lines2 b') /\ (cur' < len -> pstate cur' b') | UB => True | OutOfFuel => False end).
  { intros b' E0 L0 S0. unfold header_title. destruct (is_nl c || last).
    2:{ bcbn; split; auto; intros _; unfold pstate; bcbn; destruct S0 as [-> | ->]; auto. }
    destruct (inline _) eqn:Ei; cbn [rbind]; auto.
    - bcbn. destruct (o_hdrs o), (o_fh o), (b_fh b'); bcbn; split; auto; intros _; unfold pstate; bcbn; auto.
    - revert Ei. apply inline_fuel, no_nul_dup, Hnul. }
  apply GEN. clear GEN.
  assert (HT0 : match b_state b with BQuote | BQuoteStart | BQuoteEnd | BCodeStart | BCodeEnd | BUlStart | BUlEnd | BOlStart | BOlEnd => True | _ => b_lines b = [] end).
  { destruct HT as [(_ & K)|(_ & _ & _ & _ & K)]; unfold pstate in K; destruct (b_state b); exact I || exact K. }
  destruct (b_state b) eqn:St; try (splits; done; fail).
  - (* start *)
    destruct (c == ">"%char) eqn:Eg.
    + apply eqb_true in Eg. subst c. cbn [is_digit is_sp].
      splits; split; auto; intros _; unfold pstate; bcbn; rewrite ?St; auto. repeat split; auto; [lia|].
      replace (sub s cur (cur + 1)) with [">"%char]; [constructor; [reflexivity|constructor]|]. rewrite (@sub_snoc s cur cur _ (le_n _) Ec).
      unfold sub. rewrite Nat.sub_diag. reflexivity.
    + splits; done.
  - destruct (is_sp c); [done|]. destruct (negb (is_nl c)); [done|]. apply HTT; bcbn; auto.
  - apply HTT; auto.
  - unfold html_end. splits; done.
  - unfold html_end. splits; done.
  - (* quote *)
    clear HT0. destruct HT as [(En & HT)|(-> & Hpos & Ex & Er & HT)]; unfold pstate in HT; rewrite St in HT; destruct HT as (HT1 & HT2 & HT3 & HT4 & HT5).
    + assert (SN : nonnl (sub s (b_start b) (cur + 1))).
      { rewrite (@sub_snoc s (b_start b) cur c ltac:(lia) Ec). apply Forall_app. split; [exact HT5|]. constructor; [exact En|constructor]. }
      destruct (is_sp c).
      * split; [exact H2|]. intros _. unfold pstate. rewrite St. repeat split; auto. lia.
      * split; [exact H2|]. intros _. unfold pstate. bcbn. rewrite HT1, HT2.
        assert (E : skipn (b_start b) s = ">"%char :: skipn (b_start b + 1) s) by (apply skipn_at; exact HT4).
        assert (E3 : exists q, sub s (b_start b) cur = ">"%char :: q).
        { unfold sub. rewrite E. destruct (cur - b_start b) eqn:K; [lia|]. cbn [firstn]. eauto. }
        destruct E3 as (q & E3). rewrite dup_sub by lia. rewrite E3. exists q. split; [reflexivity|]. split; [lia|]. split; [intros z []|].
        split; [pose proof (cnt_skipn (b_start b) s); cbn [concat length]; change (cnt []) with 0; lia|].
        left. split; [exact SN|left; constructor].
    + assert (is_sp y = false) as -> by (destruct Hy as [-> | ->]; reflexivity).
      split; [exact H2|]. intros _. unfold pstate. bcbn. rewrite HT1, HT2.
      assert (E : skipn (b_start b) s = ">"%char :: skipn (b_start b + 1) s) by (apply skipn_at; exact HT4).
      rewrite dup_sub by lia.
      assert (E2 : sub s (b_start b) cur = sub s (b_start b) (cur - 1) ++ [x]).
      { pose proof (@sub_snoc s (b_start b) (cur - 1) x ltac:(lia) Ex) as K. replace (cur - 1 + 1) with cur in K by lia. exact K. }
      assert (E3 : exists q, sub s (b_start b) (cur - 1) = ">"%char :: q).
      { unfold sub. rewrite E. destruct (cur - 1 - b_start b) eqn:K; [lia|]. cbn [firstn]. eauto. }
      destruct E3 as (q & E3). rewrite E3 in E2. cbn [app] in E2.
      exists (q ++ [x]). rewrite E2. split; [reflexivity|]. split; [lia|]. split; [intros z []|].
      split; [pose proof (cnt_skipn (b_start b) s); cbn [concat length]; change (cnt []) with 0; lia|].
      right. split; [reflexivity|]. split; [apply in_or_app; right; left; reflexivity|]. exists [].
      split; [|constructor]. rewrite (@sub_snoc s (b_start b) cur y ltac:(lia) Ec), E2. reflexivity.
  - (* quote start *)
    clear HT0. destruct (is_nl c || last) eqn:Eol.
    2:{ apply orb_false_iff in Eol. destruct Eol as [En El]. destruct HT as [(_ & HT)|(-> & _)].
        2:{ apply is_nl_iff in Hy. congruence. }
        unfold pstate in HT. rewrite St in HT. destruct HT as (p & HT1 & HT2 & HT3 & HT4 & HT5).
        split; [exact H2|]. intros _. unfold pstate. rewrite St. exists p. split; [exact HT1|]. split; [lia|]. split; [exact HT3|]. split; [exact HT4|].
        rewrite (@sub_snoc s (b_start2 b) cur c ltac:(lia) Ec). destruct HT5 as [[K1 K2]|(K1 & K2 & w & K3 & K4)]; [left|right].
        - split; [|exact K2]. apply Forall_app. split; [exact K1|constructor; [exact En|constructor]].
        - split; [exact K1|]. split; [exact K2|]. exists (w ++ [c]). rewrite K3, <- app_assoc. split; [reflexivity|].
          apply Forall_app. split; [exact K4|constructor; [exact En|constructor]]. }
    (* the line read *)
    assert (X : exists p n, b_prefix b = Some (">"%char :: p) /\ line_end len cur c b = n /\ b_start2 b < n <= cur + 1 /\
      incl (concat (b_lines b)) s /\ cnt (concat (b_lines b)) + length (b_lines b) + cnt (skipn (b_start2 b) s) <= cnt s /\
      ((nonnl (sub s (b_start2 b) n) /\ kept p (b_lines b)) \/
       (b_lines b = [] /\ In x p /\ exists w, sub s (b_start2 b) n = (">"%char :: p) ++ y :: w /\ nonnl w))).
    { destruct HT as [(En & HT)|(-> & Hpos & Ex & Er & HT)]; unfold pstate in HT; rewrite St in HT; destruct HT as (p & HT1 & HT2 & HT3 & HT4 & HT5); exists p.
      - exists (cur + 1). rewrite En in Eol. cbn [orb] in Eol. split; [exact HT1|]. split.
        { unfold line_end. fold last. rewrite Eol, En. cbn [negb andb]. apply Nat.eqb_eq in Eol. lia. }
        split; [lia|]. split; [exact HT3|]. split; [exact HT4|].
        rewrite (@sub_snoc s (b_start2 b) cur c ltac:(lia) Ec). destruct HT5 as [[K1 K2]|(K1 & K2 & w & K3 & K4)]; [left|right].
        + split; [|exact K2]. apply Forall_app. split; [exact K1|constructor; [exact En|constructor]].
        + split; [exact K1|]. split; [exact K2|]. exists (w ++ [c]). rewrite K3, <- app_assoc. split; [reflexivity|].
          apply Forall_app. split; [exact K4|constructor; [exact En|constructor]].
      - exists (cur - 1). split; [exact HT1|]. split.
        { unfold line_end. apply is_nl_iff in Hy. rewrite Hy. rewrite andb_false_r, Er. destruct (Nat.eqb_spec (cur - 1) 0); [lia|reflexivity]. }
        split; [lia|]. split; [exact HT3|]. split; [exact HT4|]. exact HT5. }
    destruct X as (p & n & Hp & En & Ln & HT2 & HT3 & Hsh). rewrite Hp. bcbn. rewrite En.
    rewrite dup_sub by lia. set (t := sub s (b_start2 b) n) in *.
    destruct (starts_with t (">"%char :: p)) eqn:Sw.
    2:{ destruct last; done. }
    destruct (sw_gt Sw) as (r & Et).
    assert (Cr : cnt (skipn (length p) r) + 1 + cnt (skipn n s) <= cnt (skipn (b_start2 b) s)).
    { pose proof (@cnt_sub (b_start2 b) n s ltac:(lia)) as K.
      fold t in K. rewrite Et in K. change (cnt (">"%char :: r)) with (S (cnt r)) in K.
      pose proof (cnt_skipn (length p) r). lia. }
    assert (Ir : incl (skipn (length p) r) s).
    { intros z Hz. apply in_skipn in Hz. assert (Hz' : In z t) by (rewrite Et; right; exact Hz).
      subst t. unfold sub in Hz'. apply in_firstn in Hz'. exact (in_skipn Hz'). }
    set (l' := b_lines b ++ [skipn (length (">"%char :: p)) t]).
    assert (Il : incl (concat l') s).
    { subst l'. rewrite Et. cbn [length skipn]. rewrite concat_app. apply incl_app; [exact HT2|].
      cbn [concat]. rewrite app_nil_r. exact Ir. }
    assert (Cl : cnt (concat l') + length l' + cnt (skipn n s) <= cnt s).
    { subst l'. rewrite Et. cbn [length skipn]. rewrite concat_app, cnt_app, app_length. cbn [concat length].
      rewrite app_nil_r. lia. }
    assert (Nl : l' <> []) by (subst l'; destruct (b_lines b); discriminate).
    assert (Kl : kept p l').
    { subst l'. destruct Hsh as [[K1 [K2|[K2 K3]]]|(K1 & K2 & w & K3 & K4)].
      - left. apply Forall_app. split; [exact K2|]. constructor; [apply nonnl_skipn, K1|constructor].
      - exfalso. destruct (sw_spec' Sw) as (z & Ez). unfold nonnl in K1. rewrite Forall_forall in K1.
        pose proof (K1 x) as K. rewrite x_nl in K. discriminate K. rewrite Ez. apply in_or_app. left. right. exact K2.
      - right. split; [exact K2|]. right. exists w. split; [|exact K4]. rewrite K1, K3. cbn [app]. f_equal.
        change (">"%char :: p ++ y :: w) with ((">"%char :: p) ++ y :: w). rewrite skipn_app, skipn_all, Nat.sub_diag. reflexivity. }
    destruct last eqn:La.
    + apply (@quote_end_P cur c true (set_state BQuoteEnd (set_lines l' (set_end n b))) Lc Ec) with (p := p); bcbn; auto; [lia|intro; discriminate].
    + split; [exact H2|]. intros _. unfold pstate. bcbn. exists p. repeat split; auto.
      pose proof (@cnt_skipn_mono n (cur + 1) s ltac:(lia)). lia.
  - (* quote end *)
    assert (X : exists p, b_prefix b = Some (">"%char :: p) /\ b_lines b <> [] /\ incl (concat (b_lines b)) s /\
      cnt (concat (b_lines b)) + length (b_lines b) + cnt (skipn cur s) <= cnt s /\ kept p (b_lines b)).
    { destruct HT as [(En & HT)|(-> & Hpos & Ex & Er & HT)]; unfold pstate in HT; rewrite St in HT; destruct HT as (p & K1 & K2 & K3 & K4 & K5); exists p;
        repeat split; auto. pose proof (@cnt_skipn_mono (cur - 1) cur s ltac:(lia)). lia. }
    destruct X as (p & K1 & K2 & K3 & K4 & K5). apply quote_end_P with (p := p); auto. lia.
  - unfold code_end. splits; auto; done.
  - unfold code_end. splits; done.
  - destruct (b_prefix b) as [pre|]; [|splits; auto; done].
    apply list_start_P; auto; [left; reflexivity|left; reflexivity|]. rewrite St. left. reflexivity.
  - apply list_end_P; auto. left. reflexivity.
  - destruct (is_sp c); [done|]. destruct (negb _); [done|].
    apply list_start_P; auto; solve [right; left; reflexivity].
  - apply list_start_P; auto; [right; left; reflexivity|right; left; reflexivity|]. rewrite St. right. left. reflexivity.
  - apply list_end_P; auto. right. left. reflexivity.
  - destruct last.
    + apply PE; destruct (is_nl c || true); bcbn; auto.
    + destruct (is_nl c || false); done.
  - apply PE; auto.
Qed.

Definition ends (cur : nat) (b : bvars) : Prop :=
  (b_lef b = true -> b_le b = [x; y]) /\ (b_lef b = false -> b_le b = [LF] /\ nonnl (firstn cur s)).
Definition P1 (cur : nat) (b : bvars) : Prop :=
  len <= cur \/
  (l2_ok (b_lines2 b) /\ ends cur b /\
   ((cur = len - 1 /\ final (b_state b) = true /\ (forall c, nth_error s cur = Some c -> is_nl c = true -> b_lef b = true)) \/
    (paired x y (skipn cur s) /\ pstate cur b) \/
    (b_state b = BStart /\ b_lines b = [] /\ b_lef b = true /\ exists r, skipn cur s = y :: r /\ paired x y r))).

Lemma final_fuel cur c b : final (b_state b) = true -> bstep rec o s len cur c b <> OutOfFuel.
Proof.
  intro Hs. assert (PE : forall b' l, para_end o s cur c l b' <> OutOfFuel).
  { intros b' l. unfold para_end. destruct (is_nl c || l); [|discriminate].
    destruct (inline _) eqn:Ei; cbn [rbind]; try discriminate.
    exfalso. revert Ei. apply inline_fuel, no_nul_dup, Hnul. }
  unfold bstep. destruct (b_state b); try discriminate Hs.
  - splits; discriminate.
  - destruct (Nat.eqb cur (len - 1)); [apply PE|discriminate].
  - apply PE.
Qed.
Lemma paired_tail c r : paired x y (c :: r) -> (is_nl c = false /\ paired x y r) \/ (c = x /\ exists r', r = y :: r' /\ paired x y r').
Proof.
  intro H. inversion H as [|d t Hd Ht|t Ht]; subst; [left|right; eauto]. split; [|exact Ht].
  destruct (is_nl c) eqn:E; [|reflexivity]. apply is_nl_iff in E. contradiction.
Qed.
Lemma at_skipn i c r : skipn i s = c :: r -> nth_error s i = Some c /\ skipn (i + 1) s = r.
Proof.
  intro H. assert (E : nth_error s i = Some c).
  { rewrite <- (firstn_skipn i s), H. rewrite nth_error_app2; rewrite firstn_length; [|lia].
    assert (i < length s). { pose proof (f_equal (@length _) H) as K. rewrite skipn_length in K. cbn in K. lia. }
    replace (i - Nat.min i (length s)) with 0 by lia. reflexivity. }
  split; [exact E|]. rewrite (skipn_at E) in H. congruence.
Qed.

Lemma iter_P cur b : P1 cur b -> cur < len ->
  match iter rec o s len cur b with Ok (cur', b') => P1 cur' b' | UB => True | OutOfFuel => False end.
Proof.
  intros HI Lc. unfold iter. destruct HI as [HI|(H2 & [Hl Hf] & HI)]; [lia|].
  destruct (nth_error s cur) as [c|] eqn:Ec; [|apply nth_error_None in Ec; lia].
  rewrite (crd_at Ec). cbn [rbind].
  assert (F1 : firstn (cur + 1) s = firstn cur s ++ [c]).
  { replace (firstn (cur + 1) s) with (sub s 0 (cur + 1)) by (unfold sub; rewrite Nat.sub_0_r; reflexivity).
    rewrite (@sub_snoc s 0 cur c (Nat.le_0_l _) Ec). unfold sub. rewrite Nat.sub_0_r. reflexivity. }
  destruct HI as [(Elast & Hfin & Hn)|[(Hp & HT)|(St & Hli & Hle & r & Er & Hp)]].
  - (* the last byte, again *)
    assert (En : newline s len cur c b = Ok (cur, c, b)).
    { unfold newline. destruct (is_nl c) eqn:Enl; [|reflexivity]. replace (Nat.ltb (cur + 1) len) with false by (symmetry; apply Nat.ltb_ge; lia).
      unfold note_le. rewrite (Hn c eq_refl Enl). reflexivity. }
    rewrite En. cbn [rbind]. destruct (bstep rec o s len cur c b) as [(cu & b2)| |] eqn:Eb; auto.
    + destruct (bstep_moves Eb) as [->|(_ & _ & K & _)]; [left; lia|congruence].
    + exact (final_fuel Hfin Eb).
  - rewrite (skipn_at Ec) in Hp. destruct (paired_tail Hp) as [[En Hp']|(-> & r & Er & Hp')].
    + (* a byte of a line *)
      assert (E0 : newline s len cur c b = Ok (cur, c, b)) by (unfold newline; rewrite En; reflexivity).
      rewrite E0. cbn [rbind].
      assert (Hf' : b_lef b = false -> b_le b = [LF] /\ nonnl (firstn (cur + 1) s)).
      { intro K. destruct (Hf K) as [K1 K2]. split; [exact K1|]. rewrite F1. apply Forall_app. split; [exact K2|constructor; [exact En|constructor]]. }
      pose proof (@bstep_P cur c b Lc Ec (or_introl (conj En HT)) Hl Hf' H2) as K.
      destruct (bstep rec o s len cur c b) as [(cu & b2)| |] eqn:Eb; auto.
      destruct K as [K1 K2]. destruct (bstep_framed Eb) as (_ & G2 & G3).
      destruct (bstep_moves Eb) as [->|(-> & M1 & M2 & M3)].
      * destruct (Nat.le_gt_cases len (cur + 1)) as [L|L]; [left; exact L|right]. split; [exact K1|].
        split; [unfold ends; rewrite G2, G3; auto|]. right. left. auto.
      * right. split; [exact K1|]. split; [unfold ends; rewrite G2, G3; auto|]. left. split; [exact M1|]. split; [exact M3|].
        intros d Ed Nd. congruence.
    + (* a line ending *)
      destruct (at_skipn Er) as [Ey Er']. assert (L1 : cur + 1 < len) by (rewrite Hlen; apply nth_error_Some; congruence).
      assert (E0 : newline s len cur x b = Ok (cur + 1, y, set_real cur (note_le [x; y] b))).
      { unfold newline. rewrite x_nl. replace (Nat.ltb (cur + 1) len) with true by (symmetry; apply Nat.ltb_lt; exact L1).
        rewrite (crd_at Ey). cbn [rbind]. destruct Hx as [-> | ->], Hy as [-> | ->]; try reflexivity; exfalso; apply Hxy; reflexivity. }
      rewrite E0. cbn [rbind]. set (b1 := set_real cur (note_le [x; y] b)).
      assert (B1 : b_lef b1 = true /\ b_le b1 = [x; y] /\ b_real b1 = cur /\ b_lines2 b1 = b_lines2 b /\ pstate cur b1).
      { subst b1. unfold note_le. destruct (b_lef b) eqn:Lf; bcbn; rewrite ?Lf; repeat split; auto. }
      destruct B1 as (B1 & B2 & B3 & B4 & B5).
      pose proof (@bstep_P (cur + 1) y b1 L1 Ey) as K. replace (cur + 1 - 1) with cur in K by lia.
      assert (Lp : 0 < cur + 1) by lia. assert (Hq : b_lef b1 = false -> b_le b1 = [LF] /\ nonnl (firstn (cur + 1 + 1) s)) by (intro; congruence).
      rewrite <- B4 in H2. specialize (K (or_intror (conj eq_refl (conj Lp (conj Ec (conj B3 B5))))) (fun _ => B2) Hq H2).
      destruct (bstep rec o s len (cur + 1) y b1) as [(cu & b2)| |] eqn:Eb; auto.
      destruct K as [K1 K2]. destruct (bstep_framed Eb) as (_ & G2 & G3).
      assert (EE : forall k, ends k b2) by (intro k; unfold ends; rewrite G2, G3, B1, B2; split; [reflexivity|discriminate]).
      destruct (bstep_moves Eb) as [->|(-> & M1 & M2 & M3)].
      * destruct (Nat.le_gt_cases len (cur + 1 + 1)) as [L|L]; [left; exact L|right]. split; [exact K1|].
        split; [apply EE|]. right. left. split; [rewrite Er'; exact Hp'|auto].
      * right. split; [exact K1|]. split; [apply EE|]. left. split; [exact M1|]. split; [exact M3|]. intros; congruence.
  - (* half a line ending at the beginning of a text *)
    destruct (at_skipn Er) as [Ey Er']. assert (c = y) by congruence. subst c.
    assert (Ny : is_nl y = true) by (apply is_nl_iff, Hy).
    destruct (newline_ok b Hlen Ec) as (cu & c1 & b1 & E & Ec1 & Hcu & Hc). rewrite E. cbn [rbind].
    assert (X : is_nl c1 = true /\ b_state b1 = BStart /\ b_lines b1 = [] /\ b_lef b1 = true /\ b_le b1 = [x; y] /\ b_lines2 b1 = b_lines2 b /\
      (paired x y (skipn (cu + 1) s) \/ exists r', skipn (cu + 1) s = y :: r' /\ paired x y r')).
    { destruct Hc as [(-> & -> & [(Hn & _)|(_ & ->)])|(-> & _ & Hn1 & Hne & ->)]; [congruence| |].
      - unfold note_le. rewrite Hle. repeat split; auto. left. rewrite Er'. exact Hp.
      - unfold note_le. rewrite Hle. bcbn. repeat split; auto. right.
        rewrite (skipn_at Ec1) in Er'. rewrite <- Er' in Hp. destruct (paired_tail Hp) as [[K _]|(-> & r' & Er2 & Hp')]; [congruence|eauto]. }
    destruct X as (N1 & X1 & X2 & X3 & X4 & X5 & X6).
    unfold bstep. rewrite X1, N1. cbn [orb].
    destruct (Nat.le_gt_cases len (cu + 1)) as [L|L]; [left; exact L|right]. rewrite X5. split; [exact H2|].
    split; [unfold ends; rewrite X3, X4; split; [reflexivity|discriminate]|]. right.
    destruct X6 as [X6|X6]; [left; split; [exact X6|]; unfold pstate; rewrite X1; exact X2|right; auto].
Qed.
End Pair.

Lemma pair_terminates x y : newline_byte x -> newline_byte y -> x <> y -> forall fuel o s le, no_nul s ->
  (le = None /\ paired x y s) \/ (le = Some [x; y] /\ halved x y s) -> cnt s < fuel -> content_parse fuel o s le <> OutOfFuel.
Proof.
  intros Hx Hy Hxy. induction fuel as [|f IH]; intros o s le Hn Hle Hf; [lia|]. cbn [content_parse].
  set (rec := fun t e => _).
  assert (Hrec : forall t, cnt t < cnt s -> no_nul t ->
    (halved x y t -> rec t [x; y] <> OutOfFuel) /\ (only_nl LF t -> rec t [LF] <> OutOfFuel)).
  { intros t Hc Hnt. split; intros Ht K; unfold rec in K.
    - destruct (content_parse f quote_opts t (Some [x; y])) eqn:E; cbn [rbind] in K; try discriminate. revert E. apply IH; auto. lia.
    - destruct (content_parse f quote_opts t (Some [LF])) eqn:E; cbn [rbind] in K; try discriminate. revert E.
      apply (content_terminates (a := LF)); auto; [left; reflexivity|lia]. }
  pose proof (@bloop_inv rec o s (length s) (P1 x y s (length s)) True False eq_refl
    (fun cur b H L => iter_P o Hx Hy Hxy eq_refl Hn Hrec H L) (2 * length s) 0 (bv0 le)) as K.
  assert (I0 : P1 x y s (length s) 0 (bv0 le)).
  { right. split; [constructor|]. destruct Hle as [[-> Hp]|[-> Hp]].
    - split; [split; [discriminate|intros _; split; [reflexivity|constructor]]|]. right. left. split; [exact Hp|reflexivity].
    - split; [split; [reflexivity|discriminate]|]. right. destruct Hp as [Hp|(r & -> & Hp)]; [left; split; [exact Hp|reflexivity]|right].
      split; [reflexivity|]. split; [reflexivity|]. split; [reflexivity|]. exists r. split; [reflexivity|exact Hp]. }
  specialize (K I0 (Nat.le_0_l _)).
  destruct (bloop _ rec o s _ 0 (bv0 le)); try discriminate.
  destruct K. pose proof (need_le (length s) 0 (bv0 le)). lia.
Qed.
