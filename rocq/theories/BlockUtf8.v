(* The block parser writes UTF-8 when it reads UTF-8. *)
From Verif Require Import Base Utils UtilsProofs Utf8 Utf8Proofs Utf8Text Toctree Content InlineSpec InlineProofs InlineUtf8 BlockSpec BlockProofs BlockTerm.
#[local] Open Scope nat_scope.
#[local] Arguments B : simpl never.

Lemma ok_fixd p : forall seg nl, ok (seg ++ p) -> ok (fixd_go p seg nl).
Proof.
  induction p as [|c p IH]; intros seg nl H; cbn [fixd_go].
  - destruct nl; [reflexivity|]. apply ok_strip. rewrite app_nil_r in H. exact H.
  - destruct (is_nl c) eqn:E.
    + pose proof (@asc_of is_nl eq_refl c E) as A. destruct nl; [apply IH; rewrite <- app_assoc; exact H|].
      destruct (@ok_split seg c p A H) as [H1 H2]. apply ok_app; [apply ok_strip, H1|]. apply ok_cons; [reflexivity|]. apply IH. exact H2.
    + apply IH. rewrite <- app_assoc. exact H.
Qed.
Lemma ok_fix_description p : ok p -> ok (fix_description p).
Proof. intro H. apply ok_ent, ok_strip, ok_fixd. exact H. Qed.
Lemma ok_slugify s : ok (slugify s).
Proof.
  apply ok_asc. unfold slugify. rewrite forallb_forall. intros c H. apply in_map_iff in H. destruct H as (d & <- & _).
  exact (@forall_bytes (fun d => asc (slug_char d)) eq_refl d).
Qed.
Lemma ok_dec n : ok (dec n).
Proof.
  apply ok_asc. unfold dec. assert (G : forall f n acc, forallb asc acc = true -> forallb asc (dec_go f n acc) = true).
  { induction f as [|f IH]; intros m acc H; [exact H|]. cbn [dec_go].
    assert (K : forallb asc (ascii_of_N (48 + m mod 10) :: acc) = true).
    { cbn [forallb]. rewrite H, andb_true_r. unfold asc, nb. pose proof (N.mod_lt m 10 ltac:(lia)). rewrite N_ascii_embedding by lia. apply N.ltb_lt. lia. }
    destruct (N.eqb (m / 10) 0); [exact K|apply IH, K]. }
  apply G. reflexivity.
Qed.
Lemma ok_nls e : Forall newline_byte e -> ok e.
Proof. induction 1 as [|c e Hc He IH]; [reflexivity|]. apply ok_cons; [destruct Hc; subst; reflexivity|exact IH]. Qed.
Lemma ok_join e l : ok e -> Forall ok l -> ok (join_lines e l).
Proof.
  intros He H. induction H as [|x l Hx Hl IH]; [reflexivity|]. cbn [join_lines]. destruct l; [exact Hx|]. apply ok_app; [exact Hx|apply ok_app; assumption].
Qed.
Lemma ok_flat {A} (f : A -> bytes) l : (forall x, In x l -> ok (f x)) -> ok (flat_map f l).
Proof.
  induction l as [|x l IH]; intro H; [reflexivity|]. cbn [flat_map]. apply ok_app; [apply H; left; reflexivity|apply IH; intros y Hy; apply H; right; exact Hy].
Qed.
Lemma starts_split p : forall s, starts_with s p = true -> s = p ++ skipn (length p) s.
Proof.
  induction p as [|c p IH]; intros s H; [reflexivity|]. destruct s as [|d s]; [discriminate|]. cbn [starts_with] in H.
  apply andb_true_iff in H. destruct H as [H1 H2]. apply eqb_true in H1. subst d. cbn [length skipn app]. f_equal. apply IH, H2.
Qed.
Lemma ok_prefix t p : ok t -> ok p -> starts_with t p = true -> ok (skipn (length p) t).
Proof. intros Ht Hp H. apply starts_split in H. rewrite H in Ht. exact (ok_tail Hp Ht). Qed.
Lemma ok_asc_skip n : forall t, ok t -> forallb asc (firstn n t) = true -> ok (skipn n t).
Proof. intros t Ht H. rewrite <- (firstn_skipn n t) in Ht. exact (ok_tail (ok_asc H) Ht). Qed.
Lemma digits_asc s : forallb asc (firstn (digit_count s) s) = true.
Proof.
  induction s as [|c s IH]; [reflexivity|]. cbn [digit_count]. destruct (is_digit c) eqn:E; [|reflexivity]. cbn [firstn forallb].
  rewrite (@asc_of is_digit eq_refl c E). exact IH.
Qed.
Lemma sps_asc n : forall s, forallb asc (firstn (skip_sp s n) s) = true.
Proof.
  induction n as [|n IH]; intro s; (destruct s as [|c s]; [reflexivity|]); [reflexivity|]. cbn [skip_sp]. destruct (is_sp c) eqn:E; [|reflexivity].
  cbn [firstn forallb]. rewrite (@asc_of is_sp eq_refl c E). apply IH.
Qed.
Lemma ordered_asc t plen : is_ordered_item t plen = true -> forallb asc (firstn plen t) = true.
Proof.
  unfold is_ordered_item. destruct (Nat.ltb (length t) 2); [discriminate|]. set (i := digit_count t). destruct (Nat.eqb i 0); [discriminate|].
  destruct (nth i t NUL == "."%char) eqn:E; cbn [negb]; [|discriminate]. destruct (Nat.leb_spec (length t) (i + 1 + skip_sp (skipn (i + 1) t) (plen - (i + 1)))); [discriminate|].
  intro H'. apply Nat.eqb_eq in H'. rewrite <- H'. rewrite firstn_plus, forallb_app, sps_asc, andb_true_r.
  apply eqb_true in E. rewrite (@firstn_snoc t i "."%char).
  - rewrite forallb_app. unfold i. rewrite digits_asc. reflexivity.
  - rewrite <- E. apply nth_error_nth'. lia.
Qed.

Definition ook (x : option bytes) : Prop := forall t, x = Some t -> ok t.
Definition hok (h : header) : Prop := ook (h_slug h) /\ ook (h_text h).
Definition l2ok (l : slist2) : Prop := match l with L2 l => Forall ok l | LFreed => True end.
Definition cutu (rv : bytes) (k : nat) : Prop := k <= length rv /\ ok (firstn k rv).
Lemma cutu_app rv x k : cutu rv k -> cutu (rv ++ x) k.
Proof.
  intros [H1 H2]. split; [rewrite app_length; lia|]. rewrite firstn_app. replace (k - length rv) with 0 by lia. cbn [firstn]. rewrite app_nil_r. exact H2.
Qed.
Lemma cutu_0 rv : cutu rv 0. Proof. split; [lia|reflexivity]. Qed.
Lemma cutu_len rv : ok rv -> cutu rv (length rv). Proof. intro H. split; [lia|]. rewrite firstn_all. exact H. Qed.
Lemma ook_some x : ok x -> ook (Some x). Proof. intros H t E. inversion E; subst. exact H. Qed.
Lemma ook_none : ook None. Proof. intros t E. discriminate. Qed.

(* the states in which the next byte starts a character *)
Definition needb (st : bstate) : bool :=
  match st with
  | BStart | BHeader | BHeaderTitleStart | BQuote | BCode | BListOrRule | BQuoteEnd | BCodeEnd | BUlEnd | BOlEnd => true
  | _ => false
  end.

Section Out.
Variables (s : bytes) (len : nat) (rec : bytes -> bytes -> res bytes) (o : bopts).
Hypothesis Hlen : len = length s.
Hypothesis Hs : ok s.
Hypothesis Hrec : forall t e h, ok t -> Forall newline_byte e -> rec t e = Ok h -> ok h.

Definition V (b : bvars) : Prop :=
  ok (b_rv b) /\ Forall newline_byte (b_le b) /\ cutu (b_rv b) (b_eend b) /\ cutu (b_rv b) (b_exc b) /\
  ook (b_fh b) /\ ook (b_desc b) /\ Forall hok (b_hdrs b) /\ l2ok (b_lines2 b) /\ Forall ok (b_lines b) /\ ook (b_prefix b) /\
  bd s (b_real b) /\ bd s (b_end b).
Definition P (cur : nat) (b : bvars) : Prop := bd s (b_start b) /\ bd s (b_start2 b) /\ (needb (b_state b) = true -> bd s cur).
Definition U (cur : nat) (b : bvars) : Prop := V b /\ (cur < len -> P cur b).
Definition outU (r : res (nat * bvars)) : Prop := match r with Ok (cur, b') => U cur b' | _ => True end.

Ltac conjs := repeat match goal with |- _ /\ _ => apply conj end.
Ltac vk := unfold V in *; bcbn; conjs; try assumption; auto using cutu_0, cutu_len, cutu_app, ook_none, ook_some.

Variables (cur : nat) (c : ascii).
Hypothesis Ec : nth_error s cur = Some c.
Let last := Nat.eqb cur (len - 1).

Lemma at_asc : asc c = true -> bd s cur /\ bd s (cur + 1). Proof. exact (bd_asc Hs Ec). Qed.
Lemma at_eol : is_nl c || last = true -> cur + 1 < len -> bd s cur /\ bd s (cur + 1).
Proof.
  intros H L. apply orb_true_iff in H. destruct H as [H|H]; [apply at_asc; exact (@asc_of is_nl eq_refl c H)|].
  unfold last in H. apply Nat.eqb_eq in H. lia.
Qed.
Lemma end_bd b : V b -> is_nl c || last = true -> bd s (line_end len cur c b).
Proof.
  intros HV H. unfold line_end. fold last. destruct (is_nl c) eqn:E.
  - rewrite andb_false_r. destruct (Nat.eqb (b_real b) 0); [apply at_asc; exact (@asc_of is_nl eq_refl c E)|apply HV].
  - cbn [orb] in H. rewrite H. cbn [andb negb]. apply bd_end; [exact Hs|lia].
Qed.
Lemma V_end b : V b -> is_nl c || last = true -> V (set_end (line_end len cur c b) b).
Proof. intros HV H. pose proof (end_bd HV H). destruct HV as (V1 & V2 & V3 & V4 & V5 & V6 & V7 & V8 & V9 & V10 & V11 & V12). vk. Qed.

(* a block is finished at the end of a line *)
Lemma add_U x b b' : V b -> ok x -> b_rv b' = b_rv b ++ x -> b_le b' = b_le b -> b_eend b' = b_eend b -> b_exc b' = b_exc b ->
  ook (b_fh b') -> ook (b_desc b') -> Forall hok (b_hdrs b') -> l2ok (b_lines2 b') -> Forall ok (b_lines b') -> ook (b_prefix b') ->
  b_real b' = b_real b -> bd s (b_end b') -> b_state b' = BStart -> is_nl c || last = true ->
  (b_start b' = cur \/ bd s (b_start b')) -> (b_start2 b' = cur \/ bd s (b_start2 b')) -> U (cur + 1) b'.
Proof.
  intros (V1 & V2 & V3 & V4 & V5 & V6 & V7 & V8 & V9 & V10 & V11 & V12) Hx E1 E2 E3 E4 E5 E6 E7 E8 E9 E10 E11 E12 E13 El S1 S2.
  split.
  - unfold V. rewrite E1, E2, E3, E4, E11. conjs; auto using cutu_app. apply ok_app; assumption.
  - intro L. destruct (at_eol El L) as [A1 A2]. unfold P. conjs; [destruct S1 as [->|S1]; auto|destruct S2 as [->|S2]; auto|auto].
Qed.

Lemma flush_V b : V b -> match flush_item b with Ok b' => V b' /\ b_state b' = b_state b /\ b_start b' = b_start b /\ b_start2 b' = b_start2 b | _ => True end.
Proof.
  intro HV. unfold flush_item. destruct (b_lines2 b) as [[|y l]|] eqn:E2; auto.
  destruct (inline _) as [p| |] eqn:Ei; cbn [rbind]; auto. conjs; auto.
  destruct HV as (V1 & V2 & V3 & V4 & V5 & V6 & V7 & V8 & V9 & V10 & V11 & V12). rewrite E2 in V8.
  apply inline_utf8 in Ei; [|apply ok_join; [apply ok_nls, V2|exact V8]]. vk.
  - constructor.
  - apply Forall_app. auto.
Qed.
Lemma push_V t b : ok t -> V b -> match push2 t b with Ok b' => V b' /\ b_state b' = b_state b /\ b_start b' = b_start b /\ b_start2 b' = b_start2 b | _ => True end.
Proof.
  intros Ht HV. unfold push2. destruct (b_lines2 b) as [l|] eqn:E2; auto. conjs; auto.
  destruct HV as (V1 & V2 & V3 & V4 & V5 & V6 & V7 & V8 & V9 & V10 & V11 & V12). rewrite E2 in V8. vk. cbn [l2ok] in *. apply Forall_app. auto.
Qed.

Lemma list_end_U (tag : bytes) again b : ok tag -> needb again = false -> V b -> bd s (b_start b) -> bd s (b_start2 b) -> (is_nl c || last = false -> bd s cur) ->
  outU (list_end tag again cur c last b).
Proof.
  intros Ht Ha HV S1 S2 Hb. unfold list_end. destruct (is_nl c || last) eqn:El.
  - pose proof (flush_V HV) as K. destruct (flush_item b) as [b2| |]; cbn [rbind outU]; auto. destruct K as (K1 & K2 & K3 & K4).
    pose proof K1 as (V1 & V2 & V3 & V4 & V5 & V6 & V7 & V8 & V9 & V10 & V11 & V12).
    eapply (@add_U _ b2 _ K1); bcbn; try reflexivity; auto using ook_none.
    + pose proof (ok_nls V2). rewrite Forall_forall in V9. oks. apply ok_flat. intros x Hx. specialize (V9 _ Hx). oks.
    + right. rewrite K3. exact S1.
  - cbn [outU]. split; [destruct HV as (V1 & V2 & V3 & V4 & V5 & V6 & V7 & V8 & V9 & V10 & V11 & V12); vk|].
    intros L. unfold P. bcbn. conjs; auto. rewrite Ha. discriminate.
Qed.
Lemma list_start_U item plen (tag : bytes) again endst b : ok tag -> needb again = false ->
  (forall t, ok t -> item t = true -> ok (skipn plen t)) -> V b -> bd s (b_start b) -> bd s (b_start2 b) -> needb (b_state b) = false ->
  outU (list_start item plen tag again endst s len cur c last b).
Proof.
  intros Ht Ha Hi HV S1 S2 Hn. unfold list_start. destruct (is_nl c || last) eqn:El.
  2:{ split; [exact HV|]. intros L. unfold P. conjs; auto. rewrite Hn. discriminate. }
  pose proof (V_end HV El) as HV1. set (b1 := set_end _ b) in *. set (t := dup s (b_start2 b1) (b_end b1)).
  assert (T : ok t). { apply ok_dup; auto. apply HV1. }
  assert (FIN : forall b2, V b2 -> b_start b2 = b_start b -> b_start2 b2 = b_start2 b ->
    outU (let b := set_state endst b2 in if last then list_end tag again cur c last b else Ok (cur + 1, b))).
  { intros b2 K E1 E2. assert (K' : V (set_state endst b2)) by exact K. cbn zeta.
    assert (L1 : outU (list_end tag again cur c last (set_state endst b2))).
    { apply list_end_U; bcbn; rewrite ?E1, ?E2; auto. intro X; congruence. }
    assert (L2 : U (cur + 1) (set_state endst b2)).
    { split; [exact K'|]. intro L. unfold P. bcbn. rewrite E1, E2. conjs; auto. intros _. apply at_eol; assumption. }
    destruct last; [exact L1|exact L2]. }
  destruct (item t) eqn:Ei.
  - pose proof (flush_V HV1) as K. destruct (flush_item b1) as [b2| |]; cbn [rbind outU]; auto. destruct K as (K1 & K2 & K3 & K4).
    pose proof (push_V (Hi t T Ei) K1) as Q. destruct (push2 _ b2) as [b3| |]; cbn [rbind outU]; auto. destruct Q as (P1 & P2 & P3 & P4).
    apply FIN; [exact P1|rewrite P3, K3; reflexivity|rewrite P4, K4; reflexivity].
  - destruct (starts_with t (spaces plen)) eqn:Es.
    + assert (T2 : ok (skipn plen t)).
      { pose proof (@ok_prefix t (spaces plen) T) as K. unfold spaces in K at 3. rewrite repeat_length in K. apply K; [|exact Es].
        apply ok_asc, repeat_asc. reflexivity. }
      pose proof (push_V T2 HV1) as Q. destruct (push2 _ b1) as [b3| |]; cbn [rbind outU]; auto. destruct Q as (P1 & P2 & P3 & P4).
      apply FIN; [exact P1|rewrite P3; reflexivity|rewrite P4; reflexivity].
    + assert (D : match drop_items b1 with Ok b2 => V b2 /\ b_start b2 = b_start b /\ b_start2 b2 = b_start2 b | _ => True end).
      { unfold drop_items. destruct HV1 as (V1 & V2 & V3 & V4 & V5 & V6 & V7 & V8 & V9 & V10 & V11 & V12).
        destruct (b_lines2 b1) as [[|y l]|] eqn:E2; auto; (conjs; [unfold V; conjs; bcbn; rewrite ?E2; auto; constructor|reflexivity|reflexivity]). }
      destruct (drop_items b1) as [b2| |]; cbn [rbind outU]; auto. destruct D as (D1 & D2 & D3). cbn zeta.
      assert (W : V (set_prefix None (set_state BParaEnd b2))).
      { destruct D1 as (V1 & V2 & V3 & V4 & V5 & V6 & V7 & V8 & V9 & V10 & V11 & V12). vk. }
      destruct last; (split; [exact W|]); intros L; unfold P; bcbn; rewrite D2, D3; conjs; auto; discriminate.
Qed.

Lemma para_end_U b : V b -> bd s (b_start b) -> bd s (b_start2 b) -> outU (para_end o s cur c last b).
Proof.
  intros HV S1 S2. pose proof HV as (V1 & V2 & V3 & V4 & V5 & V6 & V7 & V8 & V9 & V10 & V11 & V12). unfold para_end. destruct (is_nl c || last) eqn:El.
  - pose proof (ok_dup Hs S1 V12) as T. destruct (inline _) as [p| |] eqn:Ei; cbn [rbind outU]; auto.
    apply inline_utf8 in Ei; [|exact T]. pose proof (ok_nls V2).
    destruct (o_desc o); [destruct (b_desc b) as [d|] eqn:Ed|]; eapply (@add_U (B "<p>" ++ p ++ B "</p>" ++ b_le b) b _ HV); bcbn; rewrite ?Ed; auto; try (oks; fail).
    apply ook_some, ok_fix_description, T.
  - cbn [outU]. split; [exact HV|]. intro L. unfold P. bcbn. conjs; auto. discriminate.
Qed.
Lemma html_end_U b : V b -> bd s (b_start b) -> bd s (b_start2 b) -> outU (html_end s cur c last b).
Proof.
  intros HV S1 S2. pose proof HV as (V1 & V2 & V3 & V4 & V5 & V6 & V7 & V8 & V9 & V10 & V11 & V12). unfold html_end. destruct (is_nl c || last) eqn:El.
  - pose proof (ok_dup Hs S1 V12) as T. pose proof (ok_nls V2).
    eapply (@add_U (dup s (b_start b) (b_end b) ++ b_le b) b _ HV); bcbn; auto; oks.
  - cbn [outU]. split; [exact HV|]. intro L. unfold P. bcbn. conjs; auto. discriminate.
Qed.
Lemma header_U b : V b -> bd s (b_start b) -> bd s (b_start2 b) -> (is_nl c || last = false -> needb (b_state b) = false) -> outU (header_title o s len cur c last b).
Proof.
  intros HV S1 S2 Hn. unfold header_title. destruct (is_nl c || last) eqn:El.
  2:{ cbn [outU]. split; [exact HV|]. intro L. unfold P. conjs; auto. rewrite Hn by reflexivity. discriminate. }
  pose proof (V_end HV El) as HV1. set (b1 := set_end _ b) in *. assert (S1' : b_start b1 = b_start b) by reflexivity. assert (S2' : b_start2 b1 = b_start2 b) by reflexivity.
  clearbody b1. set (t := dup s (b_start b1) (b_end b1)). assert (T : ok t). { apply ok_dup; [exact Hs|rewrite S1'; exact S1|apply HV1]. }
  set (b2 := if o_fh o then _ else _).
  assert (HV2 : V b2 /\ b_start2 b2 = b_start2 b).
  { unfold b2. destruct HV1 as (V1 & V2 & V3 & V4 & V5 & V6 & V7 & V8 & V9 & V10 & V11 & V12).
    destruct (o_fh o); [destruct (b_fh b1) eqn:Ef|]; (split; [unfold V; bcbn; rewrite ?Ef; conjs; auto using ook_some, ok_ent|exact S2']). }
  destruct HV2 as [HV2 S3]. clearbody b2. pose proof HV2 as (V1 & V2 & V3 & V4 & V5 & V6 & V7 & V8 & V9 & V10 & V11 & V12).
  cbv zeta. destruct (inline t) as [p| |] eqn:Ei; cbn [rbind outU]; auto. apply inline_utf8 in Ei; [|exact T].
  assert (HH : Forall hok (toctree_append (b_hdrs b2) (b_level b2) (Some (slugify t)) (Some p))).
  { unfold toctree_append. destruct (Nat.eqb (b_level b2) 0); [exact V7|]. apply Forall_app. split; [exact V7|]. constructor; [|constructor].
    split; apply ook_some; [apply ok_slugify|exact Ei]. }
  pose proof (ok_nls V2). pose proof (ok_slugify t).
  destruct (o_hdrs o); bcbn; (eapply (@add_U _ b2 _ HV2); [|bcbn; reflexivity|bcbn; auto ..]; [oks; apply ok_dec|rewrite S3; auto]).
Qed.
Lemma quote_end_U b : V b -> bd s (b_start b) -> bd s (b_start2 b) -> (is_nl c || last = false -> bd s cur) -> outU (quote_end rec cur c last b).
Proof.
  intros HV S1 S2 Hb. pose proof HV as (V1 & V2 & V3 & V4 & V5 & V6 & V7 & V8 & V9 & V10 & V11 & V12). unfold quote_end. destruct (is_nl c || last) eqn:El.
  - pose proof (ok_nls V2) as Oe. destruct (rec _ _) as [h| |] eqn:Er; cbn [rbind outU]; auto.
    apply Hrec in Er; [|apply ok_flat; rewrite Forall_forall in V9; intros x Hx; specialize (V9 _ Hx); oks|exact V2].
    eapply (@add_U (B "<blockquote>" ++ h ++ B "</blockquote>" ++ b_le b) b _ HV); bcbn; auto using ook_none; oks.
  - cbn [outU]. split; [exact HV|]. intro L. unfold P. bcbn. conjs; auto. discriminate.
Qed.
Lemma code_end_U b : V b -> bd s (b_start b) -> bd s (b_start2 b) -> (is_nl c || last = false -> bd s cur) -> outU (code_end cur c last b).
Proof.
  intros HV S1 S2 Hb. pose proof HV as (V1 & V2 & V3 & V4 & V5 & V6 & V7 & V8 & V9 & V10 & V11 & V12). unfold code_end. destruct (is_nl c || last) eqn:El.
  - pose proof (ok_nls V2) as Oe. cbn [outU].
    eapply (@add_U (B "<pre><code>" ++ join_lines (b_le b) (map htmlentities (b_lines b)) ++ B "</code></pre>" ++ b_le b) b _ HV); bcbn; auto using ook_none.
    oks. apply ok_join; [exact Oe|]. rewrite Forall_forall in *. intros x Hx. apply in_map_iff in Hx. destruct Hx as (y & <- & Hy). apply ok_ent, V9, Hy.
  - cbn [outU]. split; [exact HV|]. intro L. unfold P. bcbn. conjs; auto. discriminate.
Qed.

Lemma bstep_U b : V b -> bd s (b_start b) -> bd s (b_start2 b) -> (needb (b_state b) = true -> bd s cur) -> outU (bstep rec o s len cur c b).
Proof.
  intros HV S1 S2 Hn. pose proof HV as (V1 & V2 & V3 & V4 & V5 & V6 & V7 & V8 & V9 & V10 & V11 & V12).
  assert (GO : forall k b', V b' -> bd s (b_start b') -> bd s (b_start2 b') -> (needb (b_state b') = true -> k < len -> bd s k) -> outU (Ok (k, b'))).
  { intros k b' W T1 T2 T3. split; [exact W|]. intro L. unfold P. conjs; auto. }
  assert (SPA : is_sp c = true -> bd s (cur + 1)) by (intro E; apply at_asc; exact (@asc_of is_sp eq_refl c E)).
  assert (CH : forall d, (c == d) = true -> asc d = true -> bd s (cur + 1)).
  { intros d E A. apply eqb_true in E. subst d. apply at_asc. exact A. }
  unfold bstep. fold last. destruct (b_state b) eqn:St; cbn [needb] in Hn.
  - (* BStart *) specialize (Hn eq_refl). destruct (is_nl c || last) eqn:El.
    { apply GO; auto. intros _ L. apply at_eol; assumption. }
    cbv zeta. destruct ((c == "."%char) && o_exc o). { apply GO; bcbn; auto; try discriminate; vk. }
    destruct (c == "#"%char) eqn:E1. { apply GO; bcbn; auto. intros _ _. exact (CH _ E1 eq_refl). }
    destruct ((c == "*"%char) || (c == "+"%char) || (c == "-"%char)) eqn:E2.
    { apply GO; bcbn; auto. intros _ _. apply orb_true_iff in E2. destruct E2 as [E2|E2]; [apply orb_true_iff in E2; destruct E2 as [E2|E2]|]; exact (CH _ E2 eq_refl). }
    destruct (is_digit c) eqn:E3. { apply GO; bcbn; auto; try discriminate. }
    destruct (is_sp c) eqn:E4. { apply GO; bcbn; auto. }
    destruct (c == "<"%char) eqn:E5. { apply GO; bcbn; auto; try discriminate. }
    destruct (c == ">"%char) eqn:E6. { apply GO; bcbn; auto. intros _ _. exact (CH _ E6 eq_refl). }
    apply GO; bcbn; auto; try discriminate.
  - (* BExcerpt *) destruct (o_exc o && (c == "."%char)). { apply GO; auto; try (rewrite St; discriminate). }
    destruct (o_exc o && is_nl c). { apply GO; bcbn; auto; try discriminate. }
    apply GO; bcbn; auto; try discriminate; vk.
  - destruct (o_exc o && is_nl c) eqn:E.
    + apply andb_true_iff in E. apply GO; bcbn; auto; [vk|]. intros _ _. apply at_asc. exact (@asc_of is_nl eq_refl c (proj2 E)).
    + apply GO; bcbn; auto; try discriminate; vk.
  - (* BHeader *) destruct (c == "#"%char) eqn:E1. { apply GO; bcbn; auto. intros _ _. exact (CH _ E1 eq_refl). }
    destruct (is_sp c) eqn:E4; apply GO; bcbn; auto; try discriminate.
  - specialize (Hn eq_refl). destruct (is_sp c) eqn:E4. { apply GO; bcbn; auto. }
    cbv zeta. destruct (is_nl c) eqn:En; cbn [negb].
    + apply header_U; bcbn; auto; rewrite ?En. discriminate.
    + apply GO; bcbn; auto; try discriminate.
  - apply header_U; auto. intros _. rewrite St. reflexivity.
  - (* BHtml *) cbv zeta. destruct (is_nl c || last) eqn:El.
    + pose proof (V_end HV El) as W.
      match goal with |- outU (if last then ?x else ?y) => assert (L1 : outU x); [|assert (L2 : outU y); [|destruct last; [exact L1|exact L2]]] end.
      * apply html_end_U; bcbn; auto.
      * apply GO; bcbn; auto; try discriminate.
    + match goal with |- outU (if last then ?x else ?y) => assert (L1 : outU x); [|assert (L2 : outU y); [|destruct last; [exact L1|exact L2]]] end.
      * apply html_end_U; auto.
      * apply GO; auto; try (rewrite St; discriminate).
  - apply html_end_U; auto.
  - (* BQuote *) specialize (Hn eq_refl). destruct (is_sp c) eqn:E. { apply GO; auto. }
    pose proof (ok_dup Hs S1 Hn). apply GO; bcbn; auto; try discriminate; vk.
  - destruct (is_nl c || last) eqn:El; [|apply GO; auto; try (rewrite St; discriminate)].
    destruct (b_prefix b) as [pre|] eqn:Ep; [|exact I]. pose proof (V_end HV El) as W. cbv zeta. set (b1 := set_end _ b) in *.
    assert (T : ok (dup s (b_start2 b1) (b_end b1))). { apply ok_dup; auto. apply W. }
    set (t := dup _ _ _) in *. destruct (starts_with t pre) eqn:Es.
    + assert (WQ : V (set_state BQuoteEnd (set_lines (b_lines b1 ++ [skipn (length pre) t]) b1))).
      { pose proof (ok_prefix T (V10 _ eq_refl) Es). destruct W as (W1 & W2 & W3 & W4 & W5 & W6 & W7 & W8 & W9 & W10 & W11 & W12). unfold V. bcbn. conjs; auto. apply Forall_app. auto. }
      match goal with |- outU (if last then ?x else ?y) => assert (L1 : outU x); [|assert (L2 : outU y); [|destruct last; [exact L1|exact L2]]] end.
      * apply quote_end_U; auto. intro X; congruence.
      * apply GO; auto. intros _ L. apply at_eol; assumption.
    + assert (WP : V (set_state BPara (set_prefix None (set_lines [] b1)))) by (destruct W as (W1 & W2 & W3 & W4 & W5 & W6 & W7 & W8 & W9 & W10 & W11 & W12); unfold V; bcbn; conjs; auto using ook_none).
      apply GO; auto; try discriminate.
  - apply quote_end_U; auto.
  - (* BCode *) specialize (Hn eq_refl). destruct (is_sp c) eqn:E. { apply GO; auto. }
    pose proof (ok_dup Hs S1 Hn). apply GO; bcbn; auto; try discriminate; vk.
  - destruct (is_nl c || last) eqn:El; [|apply GO; auto; try (rewrite St; discriminate)].
    destruct (b_prefix b) as [pre|] eqn:Ep; [|exact I]. pose proof (V_end HV El) as W. cbv zeta. set (b1 := set_end _ b) in *.
    assert (T : ok (dup s (b_start2 b1) (b_end b1))). { apply ok_dup; auto. apply W. }
    set (t := dup _ _ _) in *. destruct (starts_with t pre) eqn:Es.
    + assert (WQ : V (set_state BCodeEnd (set_lines (b_lines b1 ++ [skipn (length pre) t]) b1))).
      { pose proof (ok_prefix T (V10 _ eq_refl) Es). destruct W as (W1 & W2 & W3 & W4 & W5 & W6 & W7 & W8 & W9 & W10 & W11 & W12). unfold V. bcbn. conjs; auto. apply Forall_app. auto. }
      match goal with |- outU (if last then ?x else ?y) => assert (L1 : outU x); [|assert (L2 : outU y); [|destruct last; [exact L1|exact L2]]] end.
      * apply code_end_U; auto. intro X; congruence.
      * apply GO; auto. intros _ L. apply at_eol; assumption.
    + assert (WP : V (set_state BPara (set_prefix None (set_lines [] b1)))) by (destruct W as (W1 & W2 & W3 & W4 & W5 & W6 & W7 & W8 & W9 & W10 & W11 & W12); unfold V; bcbn; conjs; auto using ook_none).
      apply GO; auto; try discriminate.
  - apply code_end_U; auto.
  - (* BListOrRule *) specialize (Hn eq_refl). destruct (_ && (c == b_d b)). { apply GO; bcbn; auto; try discriminate. }
    destruct (_ && (b_d b == "*"%char)). { apply GO; bcbn; auto; try discriminate. }
    destruct (is_sp c) eqn:E. { apply GO; auto. }
    pose proof (ok_dup Hs S1 Hn). apply GO; bcbn; auto; try discriminate; vk.
  - destruct (c == b_d b); apply GO; bcbn; auto; try discriminate.
  - destruct ((c == b_d b) && negb last). { apply GO; auto; try (rewrite St; discriminate). }
    destruct (is_nl c || last) eqn:El; [|apply GO; bcbn; auto; try discriminate].
    pose proof (ok_nls V2). eapply (@add_U (B "<hr />" ++ b_le b) b _ HV); bcbn; auto; oks.
  - (* BUlStart *) destruct (b_prefix b) as [pre|] eqn:Ep.
    + apply list_start_U; auto; [reflexivity|intros t T E; exact (ok_prefix T (V10 _ eq_refl) E)|rewrite St; reflexivity].
    + destruct (is_nl c || last); [exact I|]. apply GO; auto; try (rewrite St; discriminate).
  - apply list_end_U; auto. reflexivity.
  - destruct (is_digit c). { apply GO; auto; try (rewrite St; discriminate). }
    destruct (c == "."%char); apply GO; bcbn; auto; try discriminate.
  - destruct (is_sp c). { apply GO; auto; try (rewrite St; discriminate). }
    cbv zeta. destruct (negb (is_nl c || last)). { apply GO; bcbn; auto; try discriminate. }
    apply list_start_U; auto; [reflexivity|]. intros t T E. apply ok_asc_skip; [exact T|]. apply ordered_asc. exact E.
  - apply list_start_U; auto; [reflexivity|intros t T E; apply ok_asc_skip; [exact T|]; apply ordered_asc; exact E|rewrite St; reflexivity].
  - apply list_end_U; auto. reflexivity.
  - (* BPara *) cbv zeta. destruct (is_nl c || last) eqn:El.
    + pose proof (V_end HV El) as W.
      match goal with |- outU (if last then ?x else ?y) => assert (L1 : outU x); [|assert (L2 : outU y); [|destruct last; [exact L1|exact L2]]] end.
      * apply para_end_U; bcbn; auto.
      * apply GO; bcbn; auto; try discriminate.
    + match goal with |- outU (if last then ?x else ?y) => assert (L1 : outU x); [|assert (L2 : outU y); [|destruct last; [exact L1|exact L2]]] end.
      * apply para_end_U; auto.
      * apply GO; auto; try (rewrite St; discriminate).
  - apply para_end_U; auto.
Qed.
End Out.

Lemma iter_U s len rec o cur b : len = length s -> ok s -> (forall t e h, ok t -> Forall newline_byte e -> rec t e = Ok h -> ok h) ->
  U s len cur b -> cur < len -> match iter rec o s len cur b with Ok (cur', b') => U s len cur' b' | UB => True | OutOfFuel => True end.
Proof.
  intros Hlen Hs Hrec [HV HP] Lc. unfold iter. specialize (HP Lc). destruct HP as (P1 & P2 & P3).
  destruct (nth_error s cur) as [c|] eqn:Ec; [|apply nth_error_None in Ec; lia].
  rewrite (crd_at Ec). cbn [rbind].
  destruct (newline_ok b Hlen Ec) as (cu & c1 & b1 & E & Ec1 & Hcu & Hc). rewrite E. cbn [rbind].
  assert (NL : forall e, Forall newline_byte e -> V s (note_le e b) /\ b_start (note_le e b) = b_start b /\ b_start2 (note_le e b) = b_start2 b /\ b_state (note_le e b) = b_state b).
  { intros e He. unfold note_le. destruct (b_lef b); [auto|]. split; [|auto]. destruct HV as (V1 & V2 & V3 & V4 & V5 & V6 & V7 & V8 & V9 & V10 & V11 & V12). unfold V. bcbn. repeat match goal with |- _ /\ _ => apply conj end; assumption. }
  assert (K : V s b1 /\ b_start b1 = b_start b /\ b_start2 b1 = b_start2 b /\ (needb (b_state b1) = true -> bd s cu)).
  { destruct Hc as [(-> & -> & [(Hn & ->)|(Hn & ->)])|(-> & Hn & Hn1 & Hne & ->)]; [auto| |].
    - destruct (NL [c]) as (N1 & N2 & N3 & N4); [constructor; [apply is_nl_iff, Hn|constructor]|]. rewrite N4. auto.
    - destruct (NL [c; c1]) as (N1 & N2 & N3 & N4). { constructor; [apply is_nl_iff, Hn|constructor; [apply is_nl_iff, Hn1|constructor]]. }
      pose proof (@bd_asc s cur c Hs Ec (@asc_of is_nl eq_refl c Hn)) as [A1 A2]. split; [|auto]. destruct N1 as (V1 & V2 & V3 & V4 & V5 & V6 & V7 & V8 & V9 & V10 & V11 & V12). unfold V. bcbn. repeat match goal with |- _ /\ _ => apply conj end; assumption. }
  destruct K as (K1 & K2 & K3 & K4).
  pose proof (@bstep_U s len rec o Hlen Hs Hrec cu c1 Ec1 b1 K1) as Q. rewrite K2, K3 in Q. specialize (Q P1 P2 K4).
  unfold outU in Q. destruct (bstep _ _ _ _ _ _ _) as [(? & ?)| |]; auto.
Qed.
Lemma content_V : forall fuel o s le b, ok s -> (forall e, le = Some e -> Forall newline_byte e) -> content_parse fuel o s le = Ok b -> V s b.
Proof.
  induction fuel as [|f IH]; intros o s le b Hs Hle E; [discriminate|]. cbn [content_parse] in E.
  set (rec := fun t e => _) in E.
  assert (Hrec : forall t e h, ok t -> Forall newline_byte e -> rec t e = Ok h -> ok h).
  { intros t e h H1 H2 K. unfold rec in K. destruct (content_parse f quote_opts t (Some e)) eqn:E2; cbn [rbind] in K; inversion K; subst.
    refine (proj1 (IH _ _ _ _ H1 _ E2)). intros e' Ee. injection Ee as <-. exact H2. }
  pose proof (@bloop_inv rec o s (length s) (U s (length s)) True True eq_refl
    (fun cur b H L => iter_U o eq_refl Hs Hrec H L) (2 * length s) 0 (bv0 le)) as K.
  assert (I0 : U s (length s) 0 (bv0 le)).
  { split.
    - assert (L : Forall newline_byte (b_le (bv0 le))).
      { destruct le as [e|]; [apply Hle; reflexivity|]. constructor; [left; reflexivity|constructor]. }
      unfold V. repeat match goal with |- _ /\ _ => apply conj end; try exact L; try apply cutu_0; try exact ook_none; try reflexivity; constructor.
    - intros _. unfold P. cbn. repeat apply conj; reflexivity. }
  specialize (K I0 (Nat.le_0_l _)). rewrite E in K. apply K.
  pose proof (need_le (length s) 0 (bv0 le)). lia.
Qed.
