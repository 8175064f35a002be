(* The block parser terminates on documents that use one newline byte. *)
From Verif Require Import Base Utils UtilsProofs Toctree Content InlineSpec InlineProofs BlockSpec BlockProofs.
#[local] Arguments B : simpl never.

(* what an iteration leaves alone *)
Definition framed (b b' : bvars) : Prop := b_real b' = b_real b /\ b_le b' = b_le b /\ b_lef b' = b_lef b.
Lemma framed_refl b : framed b b. Proof. repeat split. Qed.
Lemma flush_framed b b' : flush_item b = Ok b' -> framed b b'.
Proof.
  unfold flush_item. destruct (b_lines2 b) as [[|x l]|]; try discriminate; intro H.
  - injection H as <-. apply framed_refl.
  - destruct (inline _); cbn [rbind] in H; inv H. repeat split.
Qed.
Lemma push2_framed x b b' : push2 x b = Ok b' -> framed b b'.
Proof. unfold push2. destruct (b_lines2 b); intro H; inv H. repeat split. Qed.
Lemma drop_framed b b' : drop_items b = Ok b' -> framed b b'.
Proof. unfold drop_items. destruct (b_lines2 b) as [[|x l]|]; intro H; inv H; repeat split. Qed.
Lemma framed_trans a b c : framed a b -> framed b c -> framed a c.
Proof. unfold framed. intuition congruence. Qed.
Lemma list_end_framed tag again cur c last b cur' b' :
  list_end tag again cur c last b = Ok (cur', b') -> framed b b'.
Proof.
  unfold list_end. intro H. destruct (is_nl c || last); [|brk; repeat split].
  destruct (flush_item b) eqn:E; cbn [rbind] in H; inv H. apply flush_framed in E.
  eapply framed_trans; [exact E|]. repeat split.
Qed.
Lemma list_start_framed item plen tag again endst s len cur c last b cur' b' :
  list_start item plen tag again endst s len cur c last b = Ok (cur', b') -> framed b b'.
Proof.
  intros H. unfold list_start in H.
  destruct (is_nl c || last) eqn:E0; [|injection H as <- <-; repeat split].
  destruct (item _).
  - destruct (flush_item _) eqn:E1; cbn [rbind] in H; try discriminate.
    destruct (push2 _ _) eqn:E2; cbn [rbind] in H; try discriminate.
    apply flush_framed in E1. apply push2_framed in E2.
    pose proof (framed_trans E1 E2) as F. unfold framed in *. bcbn.
    destruct last; [apply list_end_framed in H; unfold framed in H|injection H as <- <-]; bcbn; intuition congruence.
  - destruct (starts_with _ _).
    + destruct (push2 _ _) eqn:E2; cbn [rbind] in H; try discriminate.
      apply push2_framed in E2. unfold framed in *. bcbn.
      destruct last; [apply list_end_framed in H; unfold framed in H|injection H as <- <-]; bcbn; intuition congruence.
    + destruct (drop_items _) eqn:E2; cbn [rbind] in H; try discriminate.
      apply drop_framed in E2. unfold framed in *. bcbn.
      destruct last; injection H as <- <-; bcbn; intuition congruence.
Qed.
Lemma bstep_framed rec o s len cur c b cur' b' :
  bstep rec o s len cur c b = Ok (cur', b') -> framed b b'.
Proof.
  intro H. unfold bstep in H.
  destruct (b_state b);
  try (unfold header_title, html_end, quote_end, code_end, para_end in H; brk; repeat split; fail);
  try exact (list_end_framed H); try exact (list_start_framed H).
  - unfold header_title in H. brk; destruct (o_hdrs o), (o_fh o), (b_fh b); repeat split.
  - unfold header_title in H. brk; destruct (o_hdrs o), (o_fh o), (b_fh b); repeat split.
  - destruct (b_prefix b); [exact (list_start_framed H)|brk; repeat split].
  - destruct (is_sp c); [brk; repeat split|].
    destruct (negb _); [brk; repeat split|]. apply list_start_framed in H. unfold framed in *. bcbn. auto.
  - unfold para_end in H. brk; destruct (o_desc o), (b_desc b); repeat split.
  - unfold para_end in H. brk; destruct (o_desc o), (b_desc b); repeat split.
Qed.

(* ------------------------------------------------------------------ *)
Definition cnt (s : bytes) : nat := count_occ ascii_dec s ">"%char.
Lemma cnt_app x y : cnt (x ++ y) = cnt x + cnt y.
Proof. apply count_occ_app. Qed.
Lemma cnt_skipn n s : cnt (skipn n s) <= cnt s.
Proof. rewrite <- (firstn_skipn n s) at 2. rewrite cnt_app. lia. Qed.
Lemma cnt_skipn_mono a b s : a <= b -> cnt (skipn b s) <= cnt (skipn a s).
Proof. intro H. replace b with (a + (b - a)) by lia. rewrite <- skipn_add. apply cnt_skipn. Qed.
Lemma cnt_sub a b s : a <= b -> cnt (sub s a b) + cnt (skipn b s) <= cnt (skipn a s).
Proof.
  intro H. unfold sub. rewrite <- (firstn_skipn (b - a) (skipn a s)) at 2. rewrite cnt_app, skipn_add.
  replace (a + (b - a)) with b by lia. lia.
Qed.

Definition only_nl (a : ascii) (s : bytes) : Prop := forall c, In c s -> is_nl c = true -> c = a.
Definition l2_ok (l : slist2) : Prop := match l with L2 l => Forall no_nul l | LFreed => True end.

Definition tstate (s : bytes) (cur : nat) (b : bvars) : Prop :=
  match b_state b with
  | BQuote => b_lines b = [] /\ b_start2 b = b_start b /\ b_start b < cur /\ nth_error s (b_start b) = Some ">"%char
  | BQuoteStart => (exists p, b_prefix b = Some (">"%char :: p)) /\ b_start2 b <= cur /\
      incl (concat (b_lines b)) s /\
      cnt (concat (b_lines b)) + length (b_lines b) + cnt (skipn (b_start2 b) s) <= cnt s
  | BQuoteEnd => (exists p, b_prefix b = Some (">"%char :: p)) /\ b_lines b <> [] /\
      incl (concat (b_lines b)) s /\
      cnt (concat (b_lines b)) + length (b_lines b) + cnt (skipn cur s) <= cnt s
  | BCodeStart | BCodeEnd | BUlStart | BUlEnd | BOlStart | BOlEnd => True
  | _ => b_lines b = []
  end.

Definition rec_term (s : bytes) (rec : bytes -> bytes -> res bytes) : Prop :=
  forall t x, cnt t < cnt s -> newline_byte x -> only_nl x t -> no_nul t -> rec t [x] <> OutOfFuel.

Lemma inline_fuel t : no_nul t -> inline t <> OutOfFuel.
Proof. intro H. pose proof (inline_ok H) as K. destruct (inline t); [discriminate|discriminate|destruct K]. Qed.

Lemma nl_no_nul x : newline_byte x -> x <> NUL.
Proof. intros [-> | ->]; discriminate. Qed.
Lemma join_no_nul e l : no_nul e -> Forall no_nul l -> no_nul (join_lines e l).
Proof.
  intros He H. induction H as [|x r Hx Hr IH]; [apply no_nul_nil|]. cbn [join_lines]. destruct r; [exact Hx|].
  apply no_nul_app. split; [exact Hx|]. apply no_nul_app. auto.
Qed.

Lemma skipn_at (s : bytes) i c : nth_error s i = Some c -> skipn i s = c :: skipn (i + 1) s.
Proof.
  revert i. induction s as [|d s IH]; intros [|i] H; cbn in *; try discriminate.
  - congruence.
  - apply IH, H.
Qed.
Lemma in_firstn (c : ascii) n s : In c (firstn n s) -> In c s.
Proof. intro H. rewrite <- (firstn_skipn n s). apply in_or_app. auto. Qed.

Section Term.
Variables (s : bytes) (len : nat) (rec : bytes -> bytes -> res bytes) (o : bopts).
Hypothesis Hlen : len = length s.
Hypothesis Hnul : no_nul s.
Hypothesis Hrec : rec_term s rec.

(* the line ending in force, before the byte at [cur] is processed *)
Definition le_ok (a : ascii) (upto : bytes) (b : bvars) : Prop :=
  exists x, b_le b = [x] /\ newline_byte x /\ (b_lef b = true -> x = a) /\
            (b_lef b = false -> forall c, In c upto -> is_nl c = false).

Definition T1 (a : ascii) (cur : nat) (b : bvars) : Prop :=
  b_real b = 0 /\ le_ok a (firstn cur s) b /\ l2_ok (b_lines2 b) /\ tstate s cur b.

Lemma flush_T x b : b_le b = [x] -> newline_byte x -> l2_ok (b_lines2 b) ->
  match flush_item b with
  | Ok b' => l2_ok (b_lines2 b') /\ b_state b' = b_state b | UB => True | OutOfFuel => False end.
Proof.
  intros E Hx H2. unfold flush_item. destruct (b_lines2 b) as [[|y l]|] eqn:E2; auto.
  - rewrite E2. auto.
  - destruct (inline _) eqn:Ei; cbn [rbind]; bcbn; auto.
    + split; [constructor|reflexivity].
    + revert Ei. apply inline_fuel. apply join_no_nul; [|exact H2]. rewrite E.
      intros [K|[]]. exact (nl_no_nul Hx K).
Qed.
Lemma push_T t b : no_nul t -> l2_ok (b_lines2 b) ->
  match push2 t b with
  | Ok b' => l2_ok (b_lines2 b') /\ b_state b' = b_state b | UB => True | OutOfFuel => False end.
Proof.
  intros Ht H2. unfold push2. destruct (b_lines2 b) as [l|]; bcbn; auto. split; [|reflexivity].
  apply Forall_app. split; [exact H2|]. constructor; auto.
Qed.
Lemma list_end_T tag again x cur c last b : b_le b = [x] -> newline_byte x -> l2_ok (b_lines2 b) ->
  In again [BUlStart; BOlStart] ->
  match list_end tag again cur c last b with
  | Ok (cur', b') => cur' = cur + 1 /\ l2_ok (b_lines2 b') /\ tstate s cur' b'
  | UB => True | OutOfFuel => False end.
Proof.
  intros E Hx H2 Ha. unfold list_end. destruct (is_nl c || last).
  - pose proof (flush_T E Hx H2) as K. destruct (flush_item b); cbn [rbind] in *; auto.
    bcbn. destruct K as [K _]. repeat split; auto.
  - bcbn. repeat split; auto. unfold tstate. bcbn. destruct Ha as [<-|[<-|[]]]; exact I.
Qed.
Lemma list_start_T item plen tag again endst x cur c last b :
  b_le b = [x] -> newline_byte x -> l2_ok (b_lines2 b) -> tstate s cur b ->
  In again [BUlStart; BOlStart] -> In endst [BUlEnd; BOlEnd] -> In (b_state b) [BUlStart; BOlStart] ->
  match list_start item plen tag again endst s len cur c last b with
  | Ok (cur', b') => l2_ok (b_lines2 b') /\ tstate s cur' b'
  | UB => True | OutOfFuel => False end.
Proof.
  intros E Hx H2 HT Ha He Hst. unfold list_start.
  assert (HE : forall cur b', b_state b' = endst -> tstate s cur b').
  { intros cu b' Eb. unfold tstate. rewrite Eb. destruct He as [<-|[<-|[]]]; exact I. }
  assert (HA : forall cur b', b_state b' = b_state b -> tstate s cur b').
  { intros cu b' Eb. unfold tstate. rewrite Eb. destruct Hst as [<-|[<-|[]]]; exact I. }
  destruct (is_nl c || last); [|split; [exact H2|apply HA; reflexivity]].
  set (b1 := set_end _ b). set (t := dup s (b_start2 b1) (b_end b1)).
  assert (Hn : no_nul (skipn plen t)) by (apply no_nul_skipn, no_nul_dup, Hnul).
  assert (FIN : forall b2 : bvars, b_le b2 = [x] -> l2_ok (b_lines2 b2) ->
    match (let b := set_state endst b2 in
           if last then list_end tag again cur c last b else Ok (cur + 1, b)) with
    | Ok (cur', b') => l2_ok (b_lines2 b') /\ tstate s cur' b' | UB => True | OutOfFuel => False end).
  { intros b2 E2 L2. cbn zeta. destruct last.
    - pose proof (@list_end_T tag again x cur c true (set_state endst b2)) as K.
      destruct (list_end tag again cur c true (set_state endst b2)) as [(cu & b3)| |]; auto; apply K; auto.
    - split; [exact L2|]. apply HE. reflexivity. }
  destruct (item t).
  - pose proof (@flush_T x b1 E Hx H2) as K. destruct (flush_item b1) as [b2| |] eqn:Ef; cbn [rbind]; auto.
    destruct K as [K1 K2]. apply flush_framed in Ef.
    pose proof (push_T Hn K1) as P. destruct (push2 _ b2) as [b3| |] eqn:Ep; cbn [rbind]; auto.
    apply push2_framed in Ep. apply FIN; [|apply P]. destruct Ef as (_ & Ef & _). destruct Ep as (_ & Ep & _).
    rewrite Ep, Ef. exact E.
  - destruct (starts_with t _).
    + pose proof (@push_T (skipn plen t) b1 Hn H2) as P. destruct (push2 _ b1) as [b3| |] eqn:Ep; cbn [rbind]; auto.
      apply push2_framed in Ep. apply FIN; [|apply P]. destruct Ep as (_ & Ep & _). rewrite Ep. exact E.
    + unfold drop_items. subst b1. bcbn. destruct (b_lines2 b) as [[|y l]|] eqn:E2; cbn [rbind]; auto;
        destruct last; bcbn; rewrite ?E2; repeat split; auto.
Qed.

Lemma lines_text_in e l c : In c (lines_text e l) -> In c (concat l) \/ In c e.
Proof.
  unfold lines_text. intro H. apply in_flat_map in H. destruct H as (y & Hy & Hc).
  apply in_app_or in Hc. destruct Hc; [left|auto]. apply in_concat. eauto.
Qed.
Lemma cnt_lines_text x l : newline_byte x -> cnt (lines_text [x] l) = cnt (concat l).
Proof.
  intro Hx. induction l as [|y l IH]; [reflexivity|]. unfold lines_text in *. cbn [flat_map concat].
  rewrite !cnt_app, IH. assert (cnt [x] = 0) by (destruct Hx as [-> | ->]; reflexivity). lia.
Qed.

Lemma quote_end_T a x cur c last b : only_nl a s -> cur < len ->
  b_le b = [x] -> newline_byte x -> (b_lef b = true -> x = a) -> (b_lef b = false -> forall c, In c (firstn (cur + 1) s) -> is_nl c = false) ->
  last = Nat.eqb cur (len - 1) -> nth_error s cur = Some c -> (b_lef b = false -> is_nl c = false) ->
  (exists p, b_prefix b = Some (">"%char :: p)) -> b_lines b <> [] -> incl (concat (b_lines b)) s ->
  cnt (concat (b_lines b)) + length (b_lines b) <= cnt s ->
  (last = false -> cnt (concat (b_lines b)) + length (b_lines b) + cnt (skipn cur s) <= cnt s) -> l2_ok (b_lines2 b) ->
  match quote_end rec cur c last b with
  | Ok (cur', b') => l2_ok (b_lines2 b') /\ tstate s cur' b' | UB => True | OutOfFuel => False end.
Proof.
  intros Ho Lc E Hx Hl Hf El Ec Hlc Hp Hne Hi Hcnt0 Hcnt H2. unfold quote_end. destruct (is_nl c || last) eqn:Eol.
  - destruct (rec _ _) eqn:Er; cbn [rbind]; bcbn; auto; [split; [exact H2|reflexivity]|].
    rewrite E in Er. revert Er. apply Hrec; auto.
    + rewrite (cnt_lines_text _ Hx). assert (length (b_lines b) <> 0) by (destruct (b_lines b); [congruence|discriminate]). lia.
    + intros d Hd Nd. apply lines_text_in in Hd. destruct Hd as [Hd|[Hd|[]]]; [|auto].
      destruct (b_lef b); [rewrite (Hl eq_refl); apply Ho; auto|].
      exfalso. rewrite (Hlc eq_refl) in Eol. cbn [orb] in Eol. subst last. apply Nat.eqb_eq in Eol.
      rewrite (Hf eq_refl d) in Nd; [discriminate|]. rewrite firstn_all2 by lia. auto.
    + intro K. apply lines_text_in in K. destruct K as [K|[K|[]]]; [exact (Hnul (Hi _ K))|exact (nl_no_nul Hx K)].
  - bcbn. split; [exact H2|]. unfold tstate. bcbn. apply orb_false_iff in Eol. repeat split; auto; [lia|apply Hcnt, Eol].
Qed.

Lemma sw_gt t p : starts_with t (">"%char :: p) = true -> exists r, t = ">"%char :: r.
Proof.
  unfold starts_with. intro H. destruct t as [|d r]; [discriminate|]. cbn [beq length firstn] in H.
  exists r. f_equal. apply andb_true_iff in H. destruct H as [H _]. 
  first [apply eqb_true in H; congruence|apply beq_eq in H; congruence].
Qed.

Lemma line_end_real0 cur c b : b_real b = 0 -> cur < len -> cur <= line_end len cur c b <= len.
Proof.
  intros E L. unfold line_end. rewrite E. destruct (Nat.eqb cur (len - 1) && negb (is_nl c)); cbn [Nat.eqb]; lia.
Qed.

Ltac done := split; [assumption|unfold tstate; bcbn; repeat match goal with H : b_state _ = _ |- _ => rewrite H end; auto].

Lemma bstep_T a cur c b : only_nl a s -> cur < len -> nth_error s cur = Some c ->
  b_real b = 0 -> le_ok a (firstn (cur + 1) s) b -> (b_lef b = false -> is_nl c = false) ->
  l2_ok (b_lines2 b) -> tstate s cur b ->
  match bstep rec o s len cur c b with
  | Ok (cur', b') => l2_ok (b_lines2 b') /\ tstate s cur' b' | UB => True | OutOfFuel => False end.
Proof.
  intros Ho Lc Ec Er (x & Ex & Hx & Hl & Hf) Hlc H2 HT. unfold bstep.
  set (last := Nat.eqb cur (len - 1)).
  assert (PE : forall b' : bvars, b_lines b' = [] -> l2_ok (b_lines2 b') ->
    match para_end o s cur c last b' with
    | Ok (cur', b') => l2_ok (b_lines2 b') /\ tstate s cur' b' | UB => True | OutOfFuel => False end).
  { intros b' E0 L0. unfold para_end. destruct (is_nl c || last); [|bcbn; split; auto; unfold tstate; bcbn; auto].
    destruct (inline _) eqn:Ei; cbn [rbind]; auto.
    - destruct (o_desc o), (b_desc b'); bcbn; split; auto; unfold tstate; bcbn; auto.
    - revert Ei. apply inline_fuel, no_nul_dup, Hnul. }
  assert (HTT : forall b' : bvars, b_lines b' = [] -> l2_ok (b_lines2 b') -> b_state b' = BHeaderTitle \/ b_state b' = BHeaderTitleStart ->
    match header_title o s len cur c last b' with
    | Ok (cur', b') => l2_ok (b_lines2 b') /\ tstate s cur' b' | UB => True | OutOfFuel => False end).
  { intros b' E0 L0 S0. unfold header_title. destruct (is_nl c || last).
    2:{ bcbn; split; auto; unfold tstate; bcbn; destruct S0 as [-> | ->]; auto. }
    destruct (inline _) eqn:Ei; cbn [rbind]; auto.
    - bcbn. destruct (o_hdrs o), (o_fh o), (b_fh b'); bcbn; split; auto; unfold tstate; bcbn; auto.
    - revert Ei. apply inline_fuel, no_nul_dup, Hnul. }
  unfold tstate in HT. destruct (b_state b) eqn:St; try (splits; done; fail).
  - (* start *)
    destruct (c == ">"%char) eqn:Eg.
    + apply eqb_true in Eg. subst c. cbn [is_digit is_sp].
      splits; split; auto; unfold tstate; bcbn; rewrite ?St; auto. repeat split; auto. lia.
    + splits; done.
  - (* header title start *)
    destruct (is_sp c); [done|]. destruct (negb (is_nl c)); [done|]. apply HTT; bcbn; auto.
  - apply HTT; auto.
  - unfold html_end. splits; done.
  - unfold html_end. splits; done.
  - (* quote *)
    destruct HT as (HT1 & HT2 & HT3 & HT4). destruct (is_sp c).
    + split; [exact H2|]. unfold tstate. rewrite St. repeat split; auto. lia.
    + split; [exact H2|]. unfold tstate. bcbn. rewrite HT1, HT2. split.
      * assert (E : skipn (b_start b) s = ">"%char :: skipn (b_start b + 1) s).
        { apply skipn_at. exact HT4. }
        rewrite dup_sub by lia. unfold sub. rewrite E. destruct (cur - b_start b) eqn:K; [lia|].
        cbn [firstn]. eauto.
      * repeat split; [lia|intros y []|]. cbn [concat length]. pose proof (cnt_skipn (b_start b) s).
        change (cnt []) with 0. lia.
  - (* quote start *)
    destruct HT as ((p & Hp) & HT1 & HT2 & HT3). destruct (is_nl c || last) eqn:Eol.
    2:{ split; [exact H2|]. unfold tstate. rewrite St. repeat split; eauto. lia. }
    rewrite Hp. bcbn.
    pose proof (@line_end_real0 cur c b Er Lc) as [G1 G2].
    set (t := dup s (b_start2 b) (line_end len cur c b)).
    destruct (starts_with t (">"%char :: p)) eqn:Sw.
    2:{ destruct last; done. }
    destruct (sw_gt Sw) as (r & Et).
    assert (Cr : cnt (skipn (length p) r) + 1 + cnt (skipn (line_end len cur c b) s) <= cnt (skipn (b_start2 b) s)).
    { pose proof (@cnt_sub (b_start2 b) (line_end len cur c b) s ltac:(lia)) as K.
      rewrite <- dup_sub in K by lia. fold t in K. rewrite Et in K. change (cnt (">"%char :: r)) with (S (cnt r)) in K.
      pose proof (cnt_skipn (length p) r). lia. }
    assert (Ir : incl (skipn (length p) r) s).
    { intros y Hy. apply in_skipn in Hy. assert (Hy' : In y t) by (rewrite Et; right; exact Hy).
      subst t. unfold dup in Hy'. destruct (Nat.leb _ _); [apply in_firstn in Hy'|]; exact (in_skipn Hy'). }
    set (l' := b_lines b ++ [skipn (length (">"%char :: p)) t]).
    assert (Il : incl (concat l') s).
    { subst l'. rewrite Et. cbn [length skipn]. rewrite concat_app. apply incl_app; [exact HT2|].
      cbn [concat]. rewrite app_nil_r. exact Ir. }
    assert (Cl : cnt (concat l') + length l' + cnt (skipn (line_end len cur c b) s) <= cnt s).
    { subst l'. rewrite Et. cbn [length skipn]. rewrite concat_app, cnt_app, app_length. cbn [concat length].
      rewrite app_nil_r. lia. }
    assert (Nl : l' <> []) by (subst l'; destruct (b_lines b); discriminate).
    destruct last eqn:La.
    + apply (@quote_end_T a x); bcbn; eauto; [lia|intro; discriminate].
    + split; [exact H2|]. unfold tstate. bcbn. repeat split; eauto.
      assert (line_end len cur c b = cur).
      { unfold line_end. subst last. rewrite La, Er. reflexivity. }
      pose proof (@cnt_skipn_mono cur (cur + 1) s ltac:(lia)). rewrite H in Cl. lia.
  - (* quote end *)
    destruct HT as (Hp & HT1 & HT2 & HT3). apply (@quote_end_T a x); auto. lia.
  - (* code *) unfold code_end. splits; auto; done.
  - unfold code_end. splits; done.
  - destruct (b_prefix b) as [pre|]; [|splits; auto; done].
    apply (@list_start_T _ _ _ _ _ x); auto; [unfold tstate; rewrite St; exact I|left; reflexivity|left; reflexivity|].
    rewrite St. left. reflexivity.
  - pose proof (@list_end_T (B "ul") BUlStart x cur c last b Ex Hx H2 (or_introl eq_refl)) as K.
    destruct (list_end _ _ _ _ _ _) as [(cu & b3)| |]; intuition.
  - destruct (is_sp c); [done|]. destruct (negb _); [done|].
    apply (@list_start_T _ _ _ _ _ x); auto; solve [exact I|right; left; reflexivity].
  - apply (@list_start_T _ _ _ _ _ x); auto; [unfold tstate; rewrite St; exact I|right; left; reflexivity|right; left; reflexivity|].
    rewrite St. right. left. reflexivity.
  - pose proof (@list_end_T (B "ol") BOlStart x cur c last b Ex Hx H2 (or_intror (or_introl eq_refl))) as K.
    destruct (list_end _ _ _ _ _ _) as [(cu & b3)| |]; intuition.
  - destruct last.
    + apply PE; destruct (is_nl c || true); bcbn; auto.
    + destruct (is_nl c || false); done.
  - apply PE; auto.
Qed.

Lemma iter_T a cur b : newline_byte a -> only_nl a s -> T1 a cur b -> cur < len ->
  match iter rec o s len cur b with Ok (cur', b') => T1 a cur' b' | UB => True | OutOfFuel => False end.
Proof.
  intros Ha Ho (Hr & HL & H2 & HT) Lc. unfold iter.
  destruct (nth_error s cur) as [c|] eqn:Ec; [|apply nth_error_None in Ec; lia].
  rewrite (crd_at Ec). cbn [rbind].
  destruct (newline_ok b Hlen Ec) as (cu & c1 & b1 & E & Ec1 & Hcu & Hc). rewrite E. cbn [rbind].
  assert (F1 : firstn (cur + 1) s = firstn cur s ++ [c]).
  { replace (firstn (cur + 1) s) with (sub s 0 (cur + 1)) by (unfold sub; rewrite Nat.sub_0_r; reflexivity).
    rewrite (@sub_snoc s 0 cur c (Nat.le_0_l _) Ec). unfold sub. rewrite Nat.sub_0_r. reflexivity. }
  assert (K : cu = cur /\ c1 = c /\ b_real b1 = 0 /\ le_ok a (firstn (cur + 1) s) b1 /\
              (b_lef b1 = false -> is_nl c = false) /\ l2_ok (b_lines2 b1) /\ tstate s cur b1).
  { destruct Hc as [(-> & -> & [(Hn & ->)|(Hn & ->)])|(_ & Hn & Hn1 & Hne & _)].
    - repeat split; auto. destruct HL as (x & Ex & Hx & Hl & Hf). exists x. repeat split; auto.
      intros K d Hd. rewrite F1 in Hd. apply in_app_or in Hd. destruct Hd as [Hd|[<-|[]]]; auto.
    - assert (c = a) by (apply Ho; [exact (nth_error_In _ _ Ec)|exact Hn]). subst c.
      repeat split; auto; unfold note_le; destruct (b_lef b) eqn:Lf; bcbn; auto; try (rewrite Lf; discriminate); try discriminate.
      + destruct HL as (x & Ex & Hx & Hl & Hf). exists x. repeat split; auto. intro; congruence.
      + exists a. bcbn. repeat split; auto. discriminate.
    - exfalso. apply Hne. rewrite (Ho _ (nth_error_In _ _ Ec) Hn), (Ho _ (nth_error_In _ _ Ec1) Hn1). reflexivity. }
  destruct K as (-> & -> & Hr1 & HL1 & Hc1 & H21 & HT1).
  pose proof (bstep_T Ho Lc Ec Hr1 HL1 Hc1 H21 HT1) as K.
  destruct (bstep rec o s len cur c b1) as [(cu & b2)| |] eqn:Eb; auto.
  destruct (bstep_framed Eb) as (G1 & G2 & G3). pose proof (bstep_moves Eb) as M.
  destruct K as [K1 K2]. repeat split; auto; [congruence|].
  destruct HL1 as (x & Ex & Hx & Hl & Hf). exists x. rewrite G2, G3. repeat split; auto.
  intros Lf d Hd. apply (Hf Lf). destruct M as [->|(-> & _)]; [exact Hd|].
  rewrite F1. apply in_or_app. auto.
Qed.
End Term.

Lemma content_terminates : forall fuel a o s le, newline_byte a -> only_nl a s -> no_nul s ->
  (le = None \/ le = Some [a]) -> cnt s < fuel -> content_parse fuel o s le <> OutOfFuel.
Proof.
  induction fuel as [|f IH]; intros a o s le Ha Ho Hn Hle Hf; [lia|]. cbn [content_parse].
  set (rec := fun t e => _).
  assert (Hrec : rec_term s rec).
  { intros t x Hc Hx Hox Hnt. unfold rec. intro K.
    destruct (content_parse f quote_opts t (Some [x])) eqn:E; cbn [rbind] in K; try discriminate.
    revert E. apply (IH x); auto. lia. }
  pose proof (@bloop_inv rec o s (length s) (T1 s a) True False eq_refl
    (fun cur b H L => iter_T o eq_refl Hn Hrec Ha Ho H L) (2 * length s) 0 (bv0 le)) as K.
  assert (I0 : T1 s a 0 (bv0 le)).
  { repeat split; cbn; auto.
    - unfold le_ok. destruct Hle as [->| ->]; cbn.
      + exists LF. repeat split; auto; [left; reflexivity|discriminate|]. intros _ d [].
      + exists a. repeat split; auto. discriminate. }
  specialize (K I0 (Nat.le_0_l _)).
  destruct (bloop _ rec o s _ 0 (bv0 le)); try discriminate.
  destruct K. pose proof (need_le (length s) 0 (bv0 le)). lia.
Qed.
