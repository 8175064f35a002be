(* What the block parser writes. *)
From Verif Require Import Base Utils UtilsProofs Toctree Content InlineSpec InlineProofs BlockSpec BlockProofs BlockTerm.
#[local] Arguments B : simpl never.

Lemma slugify_bytes t : Forall slug_byte (slugify t).
Proof.
  unfold slugify. apply Forall_forall. intros c Hc. apply in_map_iff in Hc. destruct Hc as (d & <- & _).
  unfold slug_byte, slug_char. destruct (is_lower d) eqn:E1; [auto|].
  destruct (is_digit d) eqn:E2; [auto|]. destruct (is_upper d) eqn:E3; [|auto].
  left. destruct d as [[] [] [] [] [] [] [] []]; try discriminate E3; reflexivity.
Qed.

Definition dval (acc : nat) (c : ascii) : nat := acc * 10 + (N.to_nat (nb c) - 48).
Lemma dval_go : forall d a, fold_left dval d a = a * 10 ^ length d + fold_left dval d 0.
Proof.
  induction d as [|c d IH]; intro a; cbn [fold_left length Nat.pow]; [lia|].
  rewrite IH, (IH (dval 0 c)). unfold dval. nia.
Qed.
Lemma digit_byte n : (n < 10)%N -> is_digit (ascii_of_N (48 + n)) = true /\ N.to_nat (nb (ascii_of_N (48 + n))) - 48 = N.to_nat n.
Proof.
  intro H. unfold is_digit, in_range, nb. rewrite N_ascii_embedding by lia.
  change (N_of_ascii "0") with 48%N. change (N_of_ascii "9") with 57%N.
  split; [|lia]. apply andb_true_iff. split; apply N.leb_le; lia.
Qed.
Lemma dec_go_ok : forall fuel n acc, (n < 10 ^ N.of_nat fuel)%N -> (0 < fuel) ->
  exists d, dec_go fuel n acc = d ++ acc /\ d <> [] /\ Forall (fun c => is_digit c = true) d /\
            fold_left dval d 0 = N.to_nat n.
Proof.
  induction fuel as [|f IH]; intros n acc Hn Hf; [lia|]. cbn [dec_go].
  pose proof (N.mod_lt n 10 ltac:(lia)) as Hm. destruct (digit_byte Hm) as [D1 D2].
  destruct (N.eqb (n / 10) 0) eqn:E.
  - apply N.eqb_eq in E. exists [ascii_of_N (48 + n mod 10)]. split; [reflexivity|]. split; [discriminate|].
    split; [constructor; auto|]. cbn [fold_left]. unfold dval. rewrite D2.
    pose proof (N.div_mod n 10 ltac:(lia)). lia.
  - apply N.eqb_neq in E.
    assert (Hd : (n / 10 < 10 ^ N.of_nat f)%N).
    { apply N.div_lt_upper_bound; [lia|]. rewrite Nat2N.inj_succ, N.pow_succ_r' in Hn. exact Hn. }
    assert (Hf' : 0 < f). { destruct f; [|lia]. exfalso. change (10 ^ N.of_nat 0)%N with 1%N in Hd. lia. }
    destruct (IH (n / 10)%N (ascii_of_N (48 + n mod 10) :: acc) Hd Hf') as (d & E1 & E2 & E3 & E4).
    exists (d ++ [ascii_of_N (48 + n mod 10)]). rewrite E1. split; [rewrite <- app_assoc; reflexivity|].
    split; [destruct d; discriminate|]. split; [apply Forall_app; auto|].
    rewrite fold_left_app, E4. cbn [fold_left]. unfold dval. rewrite D2.
    pose proof (N.div_mod n 10 ltac:(lia)). lia.
Qed.
Lemma dec_decimal n : decimal n (dec (N.of_nat n)).
Proof.
  unfold dec. set (m := N.of_nat n).
  assert (Hb : (m < 10 ^ N.of_nat (S (N.to_nat (N.log2 m))))%N).
  { rewrite Nat2N.inj_succ, N2Nat.id.
    destruct (N.eq_dec m 0) as [->|Hm]; [reflexivity|].
    pose proof (N.log2_spec m ltac:(lia)) as [_ K].
    eapply N.lt_le_trans; [exact K|]. apply N.pow_le_mono_l. lia. }
  destruct (dec_go_ok [] Hb ltac:(lia)) as (d & E1 & E2 & E3 & E4). rewrite E1, app_nil_r.
  split; [exact E2|]. split; [exact E3|]. change (fold_left dval d 0 = n). rewrite E4. unfold m. lia.
Qed.

Section Out.
Variables (raw rawb : Prop).
Notation bh := (bhtml raw rawb).

Lemma bh_newlines e : Forall newline_byte e -> bh e.
Proof.
  intro H. induction H as [|c e Hc He IH]; [apply BH_nil|].
  apply (@BH_app _ _ [c] e); [apply BH_nl, Hc|exact IH].
Qed.
Lemma items_newlines e : Forall newline_byte e -> items raw e.
Proof.
  intro H. induction H as [|c e Hc He IH]; [apply IT_nil|].
  apply (@IT_app _ [c] e); [apply IT_nl, Hc|exact IH].
Qed.
Lemma text_newlines e : Forall newline_byte e -> text_bytes e e.
Proof.
  intro H. induction H as [|c e Hc He IH]; [constructor|].
  apply (@TBs_cons c [c] e e); [|exact IH].
  destruct Hc as [-> | ->]; (apply TB_plain; [cbv; intuition discriminate|discriminate]).
Qed.
Lemma text_app x x' y y' : text_bytes x x' -> text_bytes y y' -> text_bytes (x ++ y) (x' ++ y').
Proof.
  intros H1 H2. induction H1; [exact H2|]. cbn [app]. rewrite <- app_assoc. constructor; assumption.
Qed.
Lemma code_text e l : Forall newline_byte e ->
  text_bytes (join_lines e l) (join_lines e (map htmlentities l)).
Proof.
  intro He. induction l as [|x l IH]; [constructor|]. cbn [map join_lines].
  destruct l as [|y l]; [apply htmlentities_text|]. cbn [map] in *.
  apply text_app; [apply htmlentities_text|]. apply text_app; [apply text_newlines, He|exact IH].
Qed.
Lemma li_items e l : Forall newline_byte e -> Forall (html raw) l ->
  items raw (flat_map (fun x => B "<li>" ++ x ++ B "</li>" ++ e) l).
Proof.
  intros He H. induction H as [|x l Hx Hl IH]; [apply IT_nil|]. cbn [flat_map].
  apply IT_app; [|exact IH].
  replace (B "<li>" ++ x ++ B "</li>" ++ e) with ((B "<li>" ++ x ++ B "</li>") ++ e) by (rewrite <- !app_assoc; reflexivity).
  apply IT_app; [apply IT_li, Hx|apply items_newlines, He].
Qed.

Definition header_ok (h : header) : Prop :=
  1 <= h_level h /\ (exists t, h_slug h = Some t /\ Forall slug_byte t) /\ (exists x, h_text h = Some x /\ html raw x).
Definition escaped_text (x : option bytes) : Prop := forall f, x = Some f -> exists t, text_bytes t f.
Definition l2_in (s : bytes) (l : slist2) : Prop := match l with L2 l => Forall (fun t => incl t s) l | LFreed => True end.

Definition ostate (s : bytes) (b : bvars) : Prop :=
  match b_state b with
  | BHeader | BHeaderTitleStart | BHeaderTitle => b_lines b = [] /\ 1 <= b_level b
  | BHtml | BHtmlEnd => b_lines b = [] /\ rawb
  | BQuoteStart | BQuoteEnd => Forall (fun t => incl t s) (b_lines b)
  | BCodeStart | BCodeEnd => True
  | BUlStart | BUlEnd | BOlStart | BOlEnd => Forall (html raw) (b_lines b)
  | _ => b_lines b = []
  end.
(* [k] is the length of a sequence of blocks at the beginning of [rv] *)
Definition cut (rv : bytes) (k : nat) : Prop := k <= length rv /\ bh (firstn k rv).

Definition O (s : bytes) (b : bvars) : Prop :=
  bh (b_rv b) /\ Forall newline_byte (b_le b) /\ cut (b_rv b) (b_eend b) /\ cut (b_rv b) (b_exc b) /\
  escaped_text (b_fh b) /\ escaped_text (b_desc b) /\ Forall header_ok (b_hdrs b) /\
  l2_in s (b_lines2 b) /\ ostate s b.

Lemma cut_app rv x k : cut rv k -> cut (rv ++ x) k.
Proof.
  intros [H1 H2]. split; [rewrite app_length; lia|]. rewrite firstn_app.
  replace (k - length rv) with 0 by lia. cbn [firstn]. rewrite app_nil_r. exact H2.
Qed.
Lemma cut_0 rv : cut rv 0. Proof. split; [lia|apply BH_nil]. Qed.
Lemma cut_len rv : bh rv -> cut rv (length rv).
Proof. intro H. split; [lia|]. rewrite firstn_all. exact H. Qed.

Variables (s : bytes) (len : nat) (rec : bytes -> bytes -> res bytes) (o : bopts).
Hypothesis Hlen : len = length s.
Hypothesis Hnul : no_nul s.
Hypothesis Hraw : In "["%char s -> raw.
Hypothesis Hrawb : In "<"%char s -> rawb.
Hypothesis Hrec : forall t e h, no_nul t -> (In "["%char t -> raw) -> (In "<"%char t -> rawb) -> Forall newline_byte e ->
  rec t e = Ok h -> bh h.

Lemma nls_no c e : Forall newline_byte e -> c <> LF -> c <> CR -> ~ In c e.
Proof. intros He H1 H2 K. rewrite Forall_forall in He. destruct (He _ K); congruence. Qed.
Lemma dup_incl a p : incl (dup s a p) s.
Proof. intros y Hy. unfold dup in Hy. destruct (Nat.leb a p); [apply in_firstn in Hy|]; exact (in_skipn Hy). Qed.
Lemma inline_html t p : no_nul t -> (In "["%char t -> raw) -> inline t = Ok p -> html raw p.
Proof. intros Hn Hr E. pose proof (inline_ok Hn) as K. rewrite E in K. exact (html_mono Hr K). Qed.
Lemma join_in c e l : In c (join_lines e l) -> In c e \/ exists t, In t l /\ In c t.
Proof.
  induction l as [|x l IH]; [intros []|]. cbn [join_lines]. intro H. destruct l as [|y l].
  - right. exists x. split; [left; reflexivity|exact H].
  - apply in_app_or in H. destruct H as [H|H]; [right; exists x; split; [left; reflexivity|exact H]|].
    apply in_app_or in H. destruct H as [H|H]; [auto|]. destruct (IH H) as [K|(t & K1 & K2)]; [auto|].
    right. exists t. split; [right; exact K1|exact K2].
Qed.
Lemma incl_no_nul t : incl t s -> no_nul t.
Proof. intros H K. exact (Hnul (H _ K)). Qed.

Definition outO (r : res (nat * bvars)) : Prop := match r with Ok (_, b') => O s b' | _ => True end.

Lemma flush_O b : b_lines2 b = b_lines2 b -> O s b -> In (b_state b) [BUlStart; BUlEnd; BOlStart; BOlEnd] ->
  match flush_item b with Ok b' => O s b' /\ b_state b' = b_state b | _ => True end.
Proof.
  intros _ HO Hst. unfold flush_item. destruct (b_lines2 b) as [[|y l]|] eqn:E2; auto.
  destruct (inline _) as [p| |] eqn:Ei; cbn [rbind]; auto.
  destruct HO as (O1 & O2 & O3 & O4 & O5 & O6 & O7 & O8 & O9). rewrite E2 in O8. cbn [l2_in] in O8.
  rewrite Forall_forall in O8.
  assert (HP : html raw p).
  { refine (inline_html _ _ Ei).
    - intro K. apply join_in in K. destruct K as [K|(t & K1 & K2)]; [|exact (Hnul (O8 _ K1 _ K2))].
      revert K. apply nls_no; auto; discriminate.
    - intro K. apply join_in in K. destruct K as [K|(t & K1 & K2)]; [|apply Hraw; exact (O8 _ K1 _ K2)].
      exfalso. revert K. apply nls_no; auto; discriminate. }
  split; [|reflexivity]. unfold O. bcbn. repeat split; auto; try apply O3; try apply O4; [constructor|].
  unfold ostate in *. bcbn.
  destruct Hst as [E|[E|[E|[E|[]]]]]; rewrite <- E in *; apply Forall_app; auto.
Qed.
Lemma push_O t b : incl t s -> O s b -> match push2 t b with Ok b' => O s b' /\ b_state b' = b_state b | _ => True end.
Proof.
  intros Ht HO. unfold push2. destruct (b_lines2 b) as [l|] eqn:E2; auto.
  destruct HO as (O1 & O2 & O3 & O4 & O5 & O6 & O7 & O8 & O9). rewrite E2 in O8.
  split; [|reflexivity]. unfold O. bcbn. repeat split; auto; try apply O3; try apply O4.
  cbn [l2_in] in *. apply Forall_app. auto.
Qed.
Lemma addrv_O x b : O s b -> bh x -> forall b', b_rv b' = b_rv b ++ x -> b_le b' = b_le b -> b_eend b' = b_eend b ->
  b_exc b' = b_exc b -> escaped_text (b_fh b') -> escaped_text (b_desc b') -> Forall header_ok (b_hdrs b') ->
  b_lines2 b' = b_lines2 b -> b_state b' = BStart -> b_lines b' = [] -> O s b'.
Proof.
  intros (O1 & O2 & O3 & O4 & O5 & O6 & O7 & O8 & O9) Hx b' E1 E2 E3 E4 E5 E6 E7 E8 E9 E10.
  unfold O. rewrite E1, E2, E3, E4, E8. repeat split; auto; try apply cut_app; auto.
  - apply BH_app; auto.
  - unfold ostate. rewrite E9. exact E10.
Qed.

Lemma list_end_O (tag : bytes) again cur c last b : tag = B "ul" \/ tag = B "ol" ->
  In again [BUlStart; BOlStart] -> O s b -> In (b_state b) [BUlEnd; BOlEnd] ->
  outO (list_end tag again cur c last b).
Proof.
  intros Ht Ha HO Hst. unfold list_end. destruct (is_nl c || last).
  - pose proof (@flush_O b eq_refl HO) as K. destruct (flush_item b) as [b2| |]; cbn [rbind outO]; auto.
    destruct K as [K1 K2]. { cbn [In] in *. tauto. }
    pose proof K1 as (O1 & O2 & O3 & O4 & O5 & O6 & O7 & O8 & O9).
    eapply (@addrv_O _ b2 K1); bcbn; try reflexivity; auto.
    assert (HL : Forall (html raw) (b_lines b2)).
    { unfold ostate in O9. rewrite K2 in O9. destruct Hst as [E|[E|[]]]; rewrite <- E in O9; exact O9. }
    set (it := flat_map _ _). set (e := b_le b2) in *.
    assert (Hi : items raw (e ++ it)) by (apply IT_app; [apply items_newlines, O2|apply li_items; assumption]).
    replace (B "<" ++ tag ++ B ">" ++ e ++ it ++ B "</" ++ tag ++ B ">" ++ e)
      with ((B "<" ++ tag ++ B ">" ++ (e ++ it) ++ B "</" ++ tag ++ B ">") ++ e) by (rewrite <- !app_assoc; reflexivity).
    apply BH_app; [|apply bh_newlines, O2].
    destruct Ht as [-> | ->]; [exact (BH_ul _ Hi)|exact (BH_ol _ Hi)].
  - unfold outO. destruct HO as (O1 & O2 & O3 & O4 & O5 & O6 & O7 & O8 & O9). unfold O. bcbn.
    repeat split; auto; try apply O3; try apply O4. unfold ostate in *. bcbn.
    destruct Hst as [E|[E|[]]]; rewrite <- E in O9; destruct Ha as [<-|[<-|[]]]; exact O9.
Qed.
Lemma list_start_O item plen (tag : bytes) again endst cur c last b : tag = B "ul" \/ tag = B "ol" ->
  In again [BUlStart; BOlStart] -> In endst [BUlEnd; BOlEnd] -> O s b -> In (b_state b) [BUlStart; BOlStart] ->
  outO (list_start item plen tag again endst s len cur c last b).
Proof.
  intros Ht Ha He HO Hst. unfold list_start. destruct (is_nl c || last); [|exact HO].
  set (b1 := set_end _ b). assert (HO1 : O s b1) by exact HO.
  set (t := dup s (b_start2 b1) (b_end b1)).
  assert (It : incl (skipn plen t) s) by (intros y Hy; apply in_skipn in Hy; exact (dup_incl Hy)).
  assert (FIN : forall b2, O s b2 -> b_state b2 = b_state b ->
    outO (let b := set_state endst b2 in if last then list_end tag again cur c last b else Ok (cur + 1, b))).
  { intros b2 K Es. assert (K' : O s (set_state endst b2)).
    { destruct K as (O1 & O2 & O3 & O4 & O5 & O6 & O7 & O8 & O9). unfold O. bcbn.
      repeat split; auto; try apply O3; try apply O4. unfold ostate in *. bcbn. rewrite Es in O9.
      destruct Hst as [E|[E|[]]]; rewrite <- E in O9; destruct He as [<-|[<-|[]]]; exact O9. }
    cbn zeta. destruct last; [apply list_end_O; auto|exact K']. }
  destruct (item t).
  - pose proof (@flush_O b1 eq_refl HO1) as K. destruct (flush_item b1) as [b2| |]; cbn [rbind outO]; auto.
    destruct K as [K1 K2]. { cbn [In] in *. subst b1. bcbn. tauto. }
    pose proof (push_O It K1) as P. destruct (push2 _ b2) as [b3| |]; cbn [rbind outO]; auto.
    destruct P as [P1 P2]. apply FIN; [exact P1|]. rewrite P2, K2. reflexivity.
  - destruct (starts_with _ _).
    + pose proof (push_O It HO1) as P. destruct (push2 _ b1) as [b3| |]; cbn [rbind outO]; auto.
      destruct P as [P1 P2]. apply FIN; [exact P1|]. rewrite P2. reflexivity.
    + destruct HO1 as (O1 & O2 & O3 & O4 & O5 & O6 & O7 & O8 & O9).
      unfold drop_items. subst b1. bcbn. destruct (b_lines2 b) as [[|y l]|] eqn:E2; cbn [rbind outO]; auto;
        destruct last; cbn [outO]; unfold O; bcbn; rewrite ?E2;
        (repeat split; auto; try apply O3; try apply O4).
Qed.

Lemma O_keep b b' : O s b -> b_rv b' = b_rv b -> b_le b' = b_le b -> b_eend b' = b_eend b -> b_exc b' = b_exc b ->
  b_fh b' = b_fh b -> b_desc b' = b_desc b -> b_hdrs b' = b_hdrs b -> b_lines2 b' = b_lines2 b -> ostate s b' -> O s b'.
Proof.
  intros (O1 & O2 & O3 & O4 & O5 & O6 & O7 & O8 & O9) E1 E2 E3 E4 E5 E6 E7 E8 E9.
  unfold O. rewrite E1, E2, E3, E4, E5, E6, E7, E8. repeat split; auto; try apply O3; try apply O4.
Qed.

Lemma bstep_O cur c b : nth_error s cur = Some c -> O s b -> outO (bstep rec o s len cur c b).
Proof.
  intros Ec HO. pose proof HO as (O1 & O2 & O3 & O4 & O5 & O6 & O7 & O8 & O9).
  unfold bstep. set (last := Nat.eqb cur (len - 1)).
  assert (NN : forall a p, no_nul (dup s a p)) by (intros; apply no_nul_dup, Hnul).
  assert (RR : forall a p, In "["%char (dup s a p) -> raw) by (intros a p K; apply Hraw; exact (dup_incl K)).
  assert (PE : forall b' : bvars, b_rv b' = b_rv b -> b_le b' = b_le b -> b_eend b' = b_eend b -> b_exc b' = b_exc b ->
     b_fh b' = b_fh b -> b_desc b' = b_desc b -> b_hdrs b' = b_hdrs b -> b_lines2 b' = b_lines2 b -> b_lines b' = [] ->
     outO (para_end o s cur c last b')).
  { intros b' E1 E2 E3 E4 E5 E6 E7 E8 E9. unfold para_end. destruct (is_nl c || last).
    - destruct (inline _) as [p| |] eqn:Ei; cbn [rbind outO]; auto.
      assert (HP : html raw p) by (exact (inline_html (NN _ _) (@RR _ _) Ei)).
      assert (HB : bh (B "<p>" ++ p ++ B "</p>" ++ b_le b)).
      { replace (B "<p>" ++ p ++ B "</p>" ++ b_le b) with ((B "<p>" ++ p ++ B "</p>") ++ b_le b) by (rewrite <- !app_assoc; reflexivity).
        apply BH_app; [apply BH_p, HP|apply bh_newlines, O2]. }
      assert (HD : escaped_text (b_desc b')) by (rewrite E6; exact O6).
      destruct (o_desc o); [destruct (b_desc b') as [d|] eqn:Ed|]; eapply (@addrv_O _ b HO HB); bcbn;
        rewrite ?E1, ?E2, ?E5, ?E7, ?Ed; auto.
      intros f Ef; injection Ef as <-; eexists; apply htmlentities_text.
    - apply (O_keep HO); bcbn; auto. }
  assert (HTT : forall b' : bvars, b_rv b' = b_rv b -> b_le b' = b_le b -> b_eend b' = b_eend b -> b_exc b' = b_exc b ->
     b_fh b' = b_fh b -> b_desc b' = b_desc b -> b_hdrs b' = b_hdrs b -> b_lines2 b' = b_lines2 b -> b_lines b' = [] ->
     1 <= b_level b' -> b_state b' = BHeaderTitle \/ b_state b' = BHeaderTitleStart ->
     outO (header_title o s len cur c last b')).
  { intros b' E1 E2 E3 E4 E5 E6 E7 E8 E9 E10 E11. unfold header_title. destruct (is_nl c || last).
    2:{ apply (O_keep HO); auto. unfold ostate. destruct E11 as [-> | ->]; auto. }
    bcbn. set (t := dup s (b_start b') (line_end len cur c b')).
    assert (ET : forall b2 : bvars, b_start b2 = b_start b' -> b_end b2 = line_end len cur c b' -> dup s (b_start b2) (b_end b2) = t)
      by (intros b2 -> ->; reflexivity).
    assert (GO : forall b2 : bvars, b_rv b2 = b_rv b -> b_le b2 = b_le b -> b_eend b2 = b_eend b -> b_exc b2 = b_exc b ->
      escaped_text (b_fh b2) -> b_desc b2 = b_desc b -> b_hdrs b2 = b_hdrs b -> b_lines2 b2 = b_lines2 b -> b_lines b2 = [] ->
      b_level b2 = b_level b' ->
      outO (do p <- inline t;
        (let b := if o_hdrs o then set_hdrs (toctree_append (b_hdrs b2) (b_level b2) (Some (slugify t)) (Some p)) b2 else b2 in
         Ok (cur + 1, set_start cur (set_state BStart
          (addrv (B "<h" ++ dec (N.of_nat (b_level b)) ++ B " id=""" ++ slugify t ++ B """>" ++ p ++ B "</h" ++ dec (N.of_nat (b_level b)) ++ B ">" ++ b_le b) b)))))).
    { intros b2 F1 F2 F3 F4 F5 F6 F7 F8 F9 F10.
      destruct (inline t) as [p| |] eqn:Ei; cbn [rbind]; auto; try exact I.
      assert (HP : html raw p) by (exact (inline_html (NN _ _) (@RR _ _) Ei)).
      set (h := dec (N.of_nat (b_level b2))).
      assert (HB : bh (B "<h" ++ h ++ B " id=""" ++ slugify t ++ B """>" ++ p ++ B "</h" ++ h ++ B ">" ++ b_le b)).
      { replace (B "<h" ++ h ++ B " id=""" ++ slugify t ++ B """>" ++ p ++ B "</h" ++ h ++ B ">" ++ b_le b)
          with ((B "<h" ++ h ++ B " id=""" ++ slugify t ++ B """>" ++ p ++ B "</h" ++ h ++ B ">") ++ b_le b)
          by (rewrite <- !app_assoc; reflexivity).
        apply BH_app; [|apply bh_newlines, O2]. apply (@BH_h _ _ (b_level b2)); auto.
        - rewrite F10. exact E10.
        - apply dec_decimal.
        - apply slugify_bytes. }
      assert (HH : Forall header_ok (toctree_append (b_hdrs b) (b_level b') (Some (slugify t)) (Some p))).
      { unfold toctree_append. destruct (Nat.eqb (b_level b') 0); [exact O7|]. apply Forall_app. split; [exact O7|].
        constructor; [|constructor]. split; [exact E10|]. cbn. split; eexists; (split; [reflexivity|]); [apply slugify_bytes|exact HP]. }
      eapply (@addrv_O _ b HO HB); destruct (o_hdrs o); bcbn; rewrite ?F1, ?F2, ?F6, ?F7, ?F10; auto; unfold h; rewrite F10; reflexivity. }
    assert (HF : escaped_text (b_fh b')) by (rewrite E5; exact O5).
    destruct (o_fh o); [destruct (b_fh b') eqn:Ef|]; bcbn.
    - apply (GO (set_end (line_end len cur c b') b')); bcbn; auto. rewrite Ef. exact HF.
    - apply (GO (set_fh (Some (htmlentities t)) (set_end (line_end len cur c b') b'))); bcbn; auto.
      intros f Ef'. injection Ef' as <-. eexists. apply htmlentities_text.
    - apply (GO (set_end (line_end len cur c b') b')); bcbn; auto. }
  unfold ostate in O9. destruct (b_state b) eqn:St.
  - (* start *)
    destruct (is_nl c || last). { cbn [outO]. apply (O_keep HO); auto. unfold ostate. rewrite St. exact O9. }
    cbn [outO]. destruct ((c == "."%char) && o_exc o).
    { unfold O. bcbn. repeat split; auto; try apply O3; try apply O4; apply cut_len; exact O1. }
    destruct (c == "<"%char) eqn:E1.
    + apply eqb_true in E1. subst c. cbn. apply (O_keep HO); bcbn; auto. unfold ostate. bcbn.
      split; [exact O9|]. apply Hrawb. exact (nth_error_In _ _ Ec).
    + splits; apply (O_keep HO); bcbn; auto; unfold ostate; bcbn; auto.
  - splits; cbn [outO]; first [apply (O_keep HO); bcbn; auto; unfold ostate; bcbn; rewrite ?St; auto; fail|idtac].
    unfold O. bcbn. repeat split; auto; try apply O4; try apply cut_0; lia.
  - cbn [outO]. splits; unfold O; bcbn; repeat split; auto; try apply O4; try apply O3; try apply cut_0; try lia.
  - destruct O9 as [O9 O10]. splits; cbn [outO]; apply (O_keep HO); bcbn; auto; unfold ostate; bcbn; rewrite ?St; auto.
    split; [exact O9|lia].
  - destruct O9 as [O9 O10]. destruct (is_sp c). { cbn [outO]. apply (O_keep HO); auto. unfold ostate. rewrite St. auto. }
    destruct (negb (is_nl c)). { cbn [outO]. apply (O_keep HO); bcbn; auto. unfold ostate. bcbn. auto. }
    apply HTT; bcbn; auto.
  - destruct O9 as [O9 O10]. apply HTT; auto.
  - (* html *)
    destruct O9 as [O9 O10].
    assert (RB : forall b' : bvars, b_rv b' = b_rv b -> b_le b' = b_le b -> b_eend b' = b_eend b -> b_exc b' = b_exc b ->
     b_fh b' = b_fh b -> b_desc b' = b_desc b -> b_hdrs b' = b_hdrs b -> b_lines2 b' = b_lines2 b -> b_lines b' = [] ->
     outO (html_end s cur c last b')).
    { intros b' E1 E2 E3 E4 E5 E6 E7 E8 E9. unfold html_end. destruct (is_nl c || last).
      - eapply (@addrv_O _ b HO (BH_raw _ _ O10)); bcbn; rewrite ?E1, ?E2, ?E5, ?E6, ?E7; auto.
      - cbn [outO]. apply (O_keep HO); bcbn; auto. unfold ostate. bcbn. auto. }
    destruct last; [apply RB; destruct (is_nl c || true); bcbn; auto|].
    destruct (is_nl c || false); cbn [outO]; apply (O_keep HO); bcbn; auto; unfold ostate; bcbn; rewrite ?St; auto.
  - destruct O9 as [O9 O10]. unfold html_end. destruct (is_nl c || last).
    + eapply (@addrv_O _ b HO (BH_raw _ _ O10)); bcbn; auto.
    + cbn [outO]. apply (O_keep HO); bcbn; auto. unfold ostate. bcbn. auto.
  - (* quote *)
    destruct (is_sp c); cbn [outO]; apply (O_keep HO); bcbn; auto; unfold ostate; bcbn; rewrite ?St; auto.
    rewrite O9. constructor.
  - assert (QE : forall l, Forall (fun t => incl t s) l -> forall h, rec (lines_text (b_le b) l) (b_le b) = Ok h ->
      bh (B "<blockquote>" ++ h ++ B "</blockquote>" ++ b_le b)).
    { intros l Hl h E. replace (B "<blockquote>" ++ h ++ B "</blockquote>" ++ b_le b)
        with ((B "<blockquote>" ++ h ++ B "</blockquote>") ++ b_le b) by (rewrite <- !app_assoc; reflexivity).
      apply BH_app; [|apply bh_newlines, O2]. apply BH_quote.
      assert (Hin : forall d, d <> LF -> d <> CR -> In d (lines_text (b_le b) l) -> In d s).
      { intros d H1 H2 K. apply lines_text_in in K. destruct K as [K|K].
        - apply in_concat in K. destruct K as (t & Ht & Kt). rewrite Forall_forall in Hl. exact (Hl _ Ht _ Kt).
        - exfalso. revert K. apply nls_no; auto. }
      refine (Hrec _ _ _ O2 E).
      - intro K. apply Hnul. apply Hin; [discriminate|discriminate|exact K].
      - intro K. apply Hraw, Hin; [discriminate|discriminate|exact K].
      - intro K. apply Hrawb, Hin; [discriminate|discriminate|exact K]. }
    destruct (is_nl c || last) eqn:Eol; [|cbn [outO]; apply (O_keep HO); auto; unfold ostate; rewrite St; exact O9].
    destruct (b_prefix b) as [pre|]; [|exact I]. bcbn.
    set (t := dup s (b_start2 b) (line_end len cur c b)).
    destruct (starts_with t pre).
    + assert (Q4 : Forall (fun t => incl t s) (b_lines b ++ [skipn (length pre) t])).
      { apply Forall_app. split; [exact O9|]. constructor; [|constructor].
        intros y Hy. apply in_skipn in Hy. exact (dup_incl Hy). }
      destruct last.
      * unfold quote_end. rewrite orb_true_r. bcbn. destruct (rec _ _) as [h| |] eqn:Er; cbn [rbind outO]; auto.
        eapply (@addrv_O _ b HO (QE _ Q4 _ Er)); bcbn; auto.
      * cbn [outO]. apply (O_keep HO); bcbn; auto.
    + destruct last; cbn [outO]; apply (O_keep HO); bcbn; auto; reflexivity.
  - unfold quote_end. destruct (is_nl c || last).
    + destruct (rec _ _) as [h| |] eqn:Er; cbn [rbind outO]; auto.
      eapply (@addrv_O (B "<blockquote>" ++ h ++ B "</blockquote>" ++ b_le b) b HO); bcbn; auto.
      replace (B "<blockquote>" ++ h ++ B "</blockquote>" ++ b_le b)
        with ((B "<blockquote>" ++ h ++ B "</blockquote>") ++ b_le b) by (rewrite <- !app_assoc; reflexivity).
      apply BH_app; [|apply bh_newlines, O2]. apply BH_quote.
      assert (Hin : forall d, d <> LF -> d <> CR -> In d (lines_text (b_le b) (b_lines b)) -> In d s).
      { intros d H1 H2 K. apply lines_text_in in K. destruct K as [K|K].
        - apply in_concat in K. destruct K as (t & Ht & Kt). rewrite Forall_forall in O9. exact (O9 _ Ht _ Kt).
        - exfalso. revert K. apply nls_no; auto. }
      refine (Hrec _ _ _ O2 Er).
      * intro K. apply Hnul. apply Hin; [discriminate|discriminate|exact K].
      * intro K. apply Hraw, Hin; [discriminate|discriminate|exact K].
      * intro K. apply Hrawb, Hin; [discriminate|discriminate|exact K].
    + cbn [outO]. apply (O_keep HO); bcbn; auto.
  - destruct (is_sp c); cbn [outO]; apply (O_keep HO); bcbn; auto; unfold ostate; bcbn; rewrite ?St; auto.
  - (* code *)
    assert (CE : forall l, bh (B "<pre><code>" ++ join_lines (b_le b) (map htmlentities l) ++ B "</code></pre>" ++ b_le b)).
    { intro l. replace (B "<pre><code>" ++ join_lines (b_le b) (map htmlentities l) ++ B "</code></pre>" ++ b_le b)
        with ((B "<pre><code>" ++ join_lines (b_le b) (map htmlentities l) ++ B "</code></pre>") ++ b_le b)
        by (rewrite <- !app_assoc; reflexivity).
      apply BH_app; [|apply bh_newlines, O2]. eapply BH_code. apply code_text, O2. }
    destruct (is_nl c || last) eqn:Eol; [|cbn [outO]; apply (O_keep HO); auto; unfold ostate; rewrite St; exact I].
    destruct (b_prefix b) as [pre|]; [|exact I]. bcbn.
    set (t := dup s (b_start2 b) (line_end len cur c b)).
    destruct (starts_with t pre).
    + destruct last.
      * unfold code_end. rewrite orb_true_r. bcbn. cbn [outO]. eapply (@addrv_O _ b HO (CE _)); bcbn; auto.
      * cbn [outO]. apply (O_keep HO); bcbn; auto.
    + destruct last; cbn [outO]; apply (O_keep HO); bcbn; auto; reflexivity.
  - unfold code_end. destruct (is_nl c || last); cbn [outO].
    + eapply (@addrv_O (B "<pre><code>" ++ join_lines (b_le b) (map htmlentities (b_lines b)) ++ B "</code></pre>" ++ b_le b) b HO); bcbn; auto.
      replace (B "<pre><code>" ++ join_lines (b_le b) (map htmlentities (b_lines b)) ++ B "</code></pre>" ++ b_le b)
        with ((B "<pre><code>" ++ join_lines (b_le b) (map htmlentities (b_lines b)) ++ B "</code></pre>") ++ b_le b)
        by (rewrite <- !app_assoc; reflexivity).
      apply BH_app; [|apply bh_newlines, O2]. eapply BH_code. apply code_text, O2.
    + apply (O_keep HO); bcbn; auto.
  - splits; cbn [outO]; apply (O_keep HO); bcbn; auto; unfold ostate; bcbn; rewrite ?St; auto.
    rewrite O9. constructor.
  - splits; cbn [outO]; apply (O_keep HO); bcbn; auto; unfold ostate; bcbn; rewrite ?St; auto.
  - splits; cbn [outO]; try (apply (O_keep HO); bcbn; auto; unfold ostate; bcbn; rewrite ?St; auto; fail).
    all: eapply (@addrv_O (B "<hr />" ++ b_le b) b HO); bcbn; auto; apply BH_app; [apply BH_hr|apply bh_newlines, O2].
  - destruct (b_prefix b) as [pre|].
    + apply list_start_O; auto; try (left; reflexivity). rewrite St. left. reflexivity.
    + destruct (is_nl c || last); [exact I|]. cbn [outO]. apply (O_keep HO); auto. unfold ostate. rewrite St. exact O9.
  - apply list_end_O; auto; [left; reflexivity|]. rewrite St. left. reflexivity.
  - splits; cbn [outO]; apply (O_keep HO); bcbn; auto; unfold ostate; bcbn; rewrite ?St; auto.
  - destruct (is_sp c); [cbn [outO]; apply (O_keep HO); auto; unfold ostate; rewrite St; exact O9|].
    assert (HO' : O s (set_plen (cur - b_start b) (set_state BOlStart b))).
    { apply (O_keep HO); bcbn; auto. unfold ostate. bcbn. rewrite O9. constructor. }
    destruct (negb _); [exact HO'|].
    apply list_start_O; auto; right; left; reflexivity.
  - apply list_start_O; auto; try (right; left; reflexivity). rewrite St. right. left. reflexivity.
  - apply list_end_O; auto; [right; left; reflexivity|]. rewrite St. right. left. reflexivity.
  - destruct last.
    + apply PE; destruct (is_nl c || true); bcbn; auto.
    + destruct (is_nl c || false); cbn [outO]; apply (O_keep HO); bcbn; auto; unfold ostate; bcbn; rewrite ?St; auto.
  - apply PE; auto.
Qed.

Lemma iter_O cur b : O s b -> cur < len ->
  match iter rec o s len cur b with Ok (_, b') => O s b' | UB => True | OutOfFuel => True end.
Proof.
  intros HO Lc. unfold iter.
  destruct (nth_error s cur) as [c|] eqn:Ec; [|apply nth_error_None in Ec; lia].
  rewrite (crd_at Ec). cbn [rbind].
  destruct (newline_ok b Hlen Ec) as (cu & c1 & b1 & E & Ec1 & Hcu & Hc). rewrite E. cbn [rbind].
  assert (NL : forall e, Forall newline_byte e -> O s (note_le e b)).
  { intros e He. unfold note_le. destruct (b_lef b); [exact HO|].
    destruct HO as (O1 & O2 & O3 & O4 & O5 & O6 & O7 & O8 & O9). unfold O. bcbn. tauto. }
  assert (HO1 : O s b1).
  { destruct Hc as [(-> & -> & [(Hn & ->)|(Hn & ->)])|(-> & Hn & Hn1 & Hne & ->)]; [exact HO| |].
    - apply NL. constructor; [apply is_nl_iff, Hn|constructor].
    - assert (K := NL [c; c1]). apply (@O_keep (note_le [c; c1] b)); auto.
      + apply K. constructor; [apply is_nl_iff, Hn|constructor; [apply is_nl_iff, Hn1|constructor]].
      + apply K. constructor; [apply is_nl_iff, Hn|constructor; [apply is_nl_iff, Hn1|constructor]]. }
  pose proof (bstep_O Ec1 HO1) as K. unfold outO in K. destruct (bstep _ _ _ _ _ _ _) as [(? & ?)| |]; auto.
Qed.
End Out.

Lemma content_html (raw rawb : Prop) : forall fuel o s le b, no_nul s -> (In "["%char s -> raw) -> (In "<"%char s -> rawb) ->
  (forall e, le = Some e -> Forall newline_byte e) -> content_parse fuel o s le = Ok b -> O raw rawb s b.
Proof.
  induction fuel as [|f IH]; intros o s le b Hn Hr Hb Hle E; [discriminate|]. cbn [content_parse] in E.
  set (rec := fun t e => _) in E.
  assert (Hrec : forall t e h, no_nul t -> (In "["%char t -> raw) -> (In "<"%char t -> rawb) -> Forall newline_byte e ->
    rec t e = Ok h -> bhtml raw rawb h).
  { intros t e h H1 H2 H3 H4 K. unfold rec in K.
    destruct (content_parse f quote_opts t (Some e)) eqn:E2; cbn [rbind] in K; inv K.
    apply IH in E2; auto; [apply E2|]. intros e' Ee. injection Ee as <-. exact H4. }
  pose proof (@bloop_inv rec o s (length s) (fun _ => O raw rawb s) True True eq_refl
    (fun cur b H L => iter_O o eq_refl Hn Hr Hb Hrec H L) (2 * length s) 0 (bv0 le)) as K.
  assert (I0 : O raw rawb s (bv0 le)).
  { unfold O. cbn. repeat split; try apply BH_nil; try lia; auto; try (intros ? K0; discriminate K0).
    destruct le as [e|]; [apply Hle; reflexivity|]. constructor; [left; reflexivity|constructor]. }
  specialize (K I0 (Nat.le_0_l _)). rewrite E in K. apply K.
  pose proof (need_le (length s) 0 (bv0 le)). lia.
Qed.
