From Verif Require Import Base Utils ShSpec.

(* ================= split / join (C07) ================= *)
(* number of separators in s *)
Definition count_sep (c : ascii) (s : bytes) : nat := length (filter (fun x => x == c) s).

Lemma join_cons x r sep : r <> [] -> strv_join (x :: r) sep = x ++ sep ++ strv_join r sep.
Proof. destruct r; [congruence|reflexivity]. Qed.

Lemma split_go_nonempty c m rest : forall n tok, split_go c m n tok rest <> [].
Proof.
  induction rest as [|x r IH]; intros n tok; simpl; [discriminate|].
  destruct ((x == c) && _); [discriminate|apply IH].
Qed.

Lemma split_go_join c m rest : forall n tok,
  strv_join (split_go c m n tok rest) [c] = tok ++ rest.
Proof.
  induction rest as [|x r IH]; intros n tok; simpl.
  - reflexivity.
  - destruct ((x == c) && _) eqn:E.
    + rewrite join_cons by apply split_go_nonempty.
      rewrite IH. apply andb_true_iff in E. destruct E as [E _].
      apply eqb_true in E. subst. reflexivity.
    + rewrite IH, <- app_assoc. reflexivity.
Qed.

Lemma split_join s c m : strv_join (str_split s c m) [c] = s.
Proof. destruct s; [reflexivity|]. apply split_go_join. Qed.

Lemma split_go_length c m rest : forall n tok,
  length (split_go c m n tok rest) =
    S (if Nat.eqb m 0 then count_sep c rest
       else Nat.min (m - 1 - n) (count_sep c rest)).
Proof.
  unfold count_sep. induction rest as [|x r IH]; intros n tok; simpl.
  - destruct (Nat.eqb m 0); [reflexivity|]. rewrite Nat.min_0_r. reflexivity.
  - destruct (x == c); simpl.
    + destruct (Nat.eqb m 0) eqn:Em; simpl.
      * rewrite IH, ?Em. reflexivity.
      * destruct (Nat.ltb (n + 1) m) eqn:El; simpl.
        -- rewrite IH, ?Em. lia.
        -- rewrite IH, ?Em. lia.
    + rewrite IH. destruct (Nat.eqb m 0) eqn:Em; rewrite ?Em; reflexivity.
Qed.

Lemma split_length s c m : s <> [] ->
  length (str_split s c m) =
    if Nat.eqb m 0 then S (count_sep c s) else Nat.min m (S (count_sep c s)).
Proof.
  intro Hs. unfold str_split. destruct s as [|x r]; [congruence|].
  rewrite split_go_length. destruct (Nat.eqb m 0) eqn:E; [reflexivity|].
  apply Nat.eqb_neq in E. lia.
Qed.

Lemma split_go_pieces c m rest : forall n tok, ~ In c tok ->
  Forall (fun p => ~ In c p) (removelast (split_go c m n tok rest)).
Proof.
  induction rest as [|x r IH]; intros n tok Ht; simpl.
  - constructor.
  - destruct ((x == c) && _) eqn:E.
    + simpl. destruct (split_go c m (S n) [] r) eqn:Es; [constructor|].
      constructor; [exact Ht|]. rewrite <- Es. apply IH. intros [].
    + destruct (x == c) eqn:Ex.
      * (* the limit is reached: no further split *)
        simpl in E. clear IH.
        assert (Hlast : forall r n tok,
                  (Nat.eqb m 0 || Nat.ltb (n + 1) m) = false ->
                  split_go c m n tok r = [tok ++ r]).
        { clear. induction r as [|y r IH]; intros n tok E; simpl.
          - rewrite app_nil_r. reflexivity.
          - rewrite E, andb_false_r. rewrite IH by exact E.
            rewrite <- app_assoc. reflexivity. }
        rewrite Hlast by exact E. constructor.
      * apply IH. rewrite in_app_iff. intros [H|[H|[]]]; [contradiction|].
        subst. rewrite eqb_refl in Ex. discriminate.
Qed.

Lemma split_go_last0 c rest : forall n tok, ~ In c tok ->
  Forall (fun p => ~ In c p) (split_go c 0 n tok rest).
Proof.
  induction rest as [|x r IH]; intros n tok Ht; simpl.
  - constructor; [exact Ht|constructor].
  - rewrite andb_true_r. destruct (x == c) eqn:E.
    + constructor; [exact Ht|]. apply IH. intros [].
    + apply IH. rewrite in_app_iff. intros [H|[H|[]]]; [contradiction|].
      subst. rewrite eqb_refl in E. discriminate.
Qed.

Lemma split_pieces s c m :
  Forall (fun p => ~ In c p) (removelast (str_split s c m)).
Proof. destruct s; [constructor|]. apply split_go_pieces. intros []. Qed.

Lemma split_pieces0 s c : Forall (fun p => ~ In c p) (str_split s c 0).
Proof. destruct s; [constructor|]. apply split_go_last0. intros []. Qed.

(* splitting what was joined *)
Lemma split_go_piece c p : ~ In c p -> forall n tok rest,
  split_go c 0 n tok (p ++ rest) = split_go c 0 n (tok ++ p) rest.
Proof.
  induction p as [|x p IH]; intros Hp n tok rest; simpl.
  - rewrite app_nil_r. reflexivity.
  - destruct (x == c) eqn:E.
    + apply eqb_true in E. subst. destruct Hp. left. reflexivity.
    + simpl. rewrite IH by (intro; apply Hp; right; assumption).
      rewrite <- app_assoc. reflexivity.
Qed.

Lemma join_split v c : Forall (fun p => ~ In c p) v -> v <> [[]] ->
  str_split (strv_join v [c]) c 0 = v.
Proof.
  intros Hv Hne.
  assert (H : forall v n, v <> [] -> Forall (fun p => ~ In c p) v ->
              split_go c 0 n [] (strv_join v [c]) = v).
  { clear. induction v as [|p v IH]; intros n Hv Hf; [congruence|].
    inversion Hf; subst. destruct v as [|p' v].
    - simpl. rewrite app_nil_r. rewrite <- (app_nil_r p) at 1.
      rewrite split_go_piece by assumption. reflexivity.
    - rewrite join_cons by discriminate. rewrite split_go_piece by assumption.
      cbn [app split_go]. rewrite eqb_refl. cbn [andb orb Nat.eqb].
      rewrite IH; [reflexivity|discriminate|assumption]. }
  destruct v as [|p v]; [reflexivity|].
  specialize (H (p :: v) 0 ltac:(discriminate) Hv).
  unfold str_split. destruct (strv_join (p :: v) [c]) eqn:E; [|exact H].
  destruct v as [|p' v].
  - simpl in E. rewrite app_nil_r in E. subst. congruence.
  - rewrite join_cons in E by discriminate. apply app_eq_nil in E. destruct E. discriminate.
Qed.

(* ================= replace (C08) ================= *)
Definition subst1 (c : ascii) (r : bytes) (x : ascii) : bytes := if x == c then r else [x].

Lemma split_go_replace c rep rest : forall n tok,
  strv_join (split_go c 0 n tok rest) rep = tok ++ flat_map (subst1 c rep) rest.
Proof.
  induction rest as [|x r IH]; intros n tok; simpl.
  - reflexivity.
  - rewrite andb_true_r. unfold subst1 at 1. destruct (x == c) eqn:E.
    + rewrite join_cons by apply split_go_nonempty. rewrite IH. reflexivity.
    + rewrite IH, <- app_assoc. reflexivity.
Qed.

Lemma replace_spec s c rep : str_replace s c rep = flat_map (subst1 c rep) s.
Proof.
  unfold str_replace. destruct s; [reflexivity|].
  unfold str_split. rewrite split_go_replace. reflexivity.
Qed.

(* ================= strip (C09) ================= *)
(* white space, by name *)
Definition blank (c : ascii) : Prop := In c [SP; TAB; LF; VT; FF; CR].

(* t is s without its surrounding white space *)
Definition stripped (s t : bytes) : Prop :=
  exists p q, s = p ++ t ++ q /\ Forall blank p /\ Forall blank q
    /\ (forall x r, t = x :: r -> ~ blank x)
    /\ (forall r x, t = r ++ [x] -> ~ blank x).

Lemma strip_blank_spec c : strip_blank c = true <-> blank c.
Proof.
  unfold strip_blank, blank. rewrite !orb_true_iff, !eqb_true. simpl. intuition.
Qed.
Lemma strip_blank_false c : strip_blank c = false <-> ~ blank c.
Proof.
  rewrite <- strip_blank_spec. destruct (strip_blank c); intuition congruence.
Qed.

Lemma lstrip_spec s : exists p, s = p ++ lstrip s /\ Forall blank p
  /\ (forall x r, lstrip s = x :: r -> ~ blank x).
Proof.
  induction s as [|c s IH]; simpl.
  - exists []. repeat split; [constructor|]. intros; discriminate.
  - destruct (strip_blank c) eqn:E; simpl.
    + destruct IH as (p & H1 & H2 & H3). exists (c :: p). repeat split.
      * simpl. congruence.
      * constructor; [apply strip_blank_spec; exact E|exact H2].
      * exact H3.
    + exists []. repeat split; [constructor|]. intros x r H. injection H as <- _.
      apply strip_blank_false. exact E.
Qed.

Lemma rstrip_from_spec s n : 0 < n <= length s ->
  Forall blank (skipn n s) ->
  exists q, s = rstrip_from s n ++ q /\ Forall blank q
  /\ (forall r x, rstrip_from s n = r ++ [x] -> ~ blank x).
Proof.
  induction n as [|i IH]; intros Hn Hb; [lia|]. simpl.
  assert (Hi : i < length s) by lia.
  assert (Hsk : skipn i s = nth i s NUL :: skipn (S i) s).
  { clear -Hi. revert s Hi. induction i as [|i IH]; intros [|c s] Hi; simpl in *; try lia.
    - reflexivity.
    - apply IH. lia. }
  destruct (strip_blank (nth i s NUL)) eqn:E; simpl.
  - apply strip_blank_spec in E.
    assert (Hb' : Forall blank (skipn i s)) by (rewrite Hsk; constructor; assumption).
    destruct (Nat.eqb i 0) eqn:E0.
    + apply Nat.eqb_eq in E0. subst i. exists s. repeat split; [exact Hb'|].
      intros r x H. destruct r; discriminate.
    + apply Nat.eqb_neq in E0. apply IH; [lia|exact Hb'].
  - exists (skipn (S i) s). repeat split.
    + replace (i + 1) with (S i) by lia. symmetry. apply firstn_skipn.
    + exact Hb.
    + intros r x H. apply strip_blank_false.
      assert (Hx : nth i s NUL = x).
      { assert (Hl : length (firstn (i + 1) s) = i + 1) by (rewrite firstn_length; lia).
        rewrite H, app_length in Hl. simpl in Hl.
        assert (Hr : length r = i) by lia.
        rewrite <- (firstn_skipn (i + 1) s), H, <- app_assoc.
        rewrite app_nth2 by lia. rewrite Hr, Nat.sub_diag. reflexivity. }
      rewrite <- Hx. exact E.
Qed.

Lemma rstrip_spec s : exists q, s = rstrip s ++ q /\ Forall blank q
  /\ (forall r x, rstrip s = r ++ [x] -> ~ blank x).
Proof.
  unfold rstrip. destruct s as [|c s].
  - exists []. repeat split; [constructor|]. intros r x H. destruct r; discriminate.
  - apply rstrip_from_spec; [simpl; lia|]. rewrite skipn_all. constructor.
Qed.

Lemma strip_stripped s : stripped s (strip s).
Proof.
  destruct (rstrip_spec s) as (q & Hq & Hbq & Hlast).
  destruct (lstrip_spec (rstrip s)) as (p & Hp & Hbp & Hfirst).
  exists p, q. unfold strip. repeat split; try assumption.
  - rewrite app_assoc, <- Hp. exact Hq.
  - intros r x H. apply (Hlast (p ++ r) x). rewrite Hp, H, <- app_assoc. reflexivity.
Qed.

Lemma list_last_inv (A : Type) (l : list A) : l = [] \/ exists r x, l = r ++ [x].
Proof.
  destruct l using rev_ind; [left; reflexivity|right; eauto].
Qed.

Lemma all_blank_not_nonblank (l : bytes) x : Forall blank l -> In x l -> blank x.
Proof. rewrite Forall_forall. auto. Qed.

(* front strip is unique *)
Lemma front_unique p1 t1 p2 t2 :
  p1 ++ t1 = p2 ++ t2 -> Forall blank p1 -> Forall blank p2 ->
  (forall x r, t1 = x :: r -> ~ blank x) -> (forall x r, t2 = x :: r -> ~ blank x) ->
  t1 = t2.
Proof.
  revert p2. induction p1 as [|a p1 IH]; intros p2 He H1 H2 Hn1 Hn2.
  - destruct p2 as [|b p2]; [exact He|]. simpl in He. inversion H2; subst.
    destruct (Hn1 b (p2 ++ t2) eq_refl). assumption.
  - destruct p2 as [|b p2].
    + simpl in He. inversion H1; subst. destruct (Hn2 a (p1 ++ t1) eq_refl). assumption.
    + simpl in He. injection He as -> He. inversion H1; inversion H2; subst. eauto.
Qed.

Lemma stripped_unique s t1 t2 : stripped s t1 -> stripped s t2 -> t1 = t2.
Proof.
  intros (p1 & q1 & He1 & Hp1 & Hq1 & Hf1 & Hl1) (p2 & q2 & He2 & Hp2 & Hq2 & Hf2 & Hl2).
  (* reverse so that the trailing side is handled by front_unique *)
  destruct t1 as [|a1 t1'] eqn:E1; [|rewrite <- E1 in *].
  - destruct t2 as [|a2 t2']; [reflexivity|]. exfalso.
    apply (Hf2 a2 t2' eq_refl).
    apply (@all_blank_not_nonblank s).
    + rewrite He1. simpl. apply Forall_app. split; assumption.
    + rewrite He2. apply in_or_app. right. left. reflexivity.
  - destruct t2 as [|a2 t2'] eqn:E2; [|rewrite <- E2 in *].
    { exfalso. rewrite E1 in Hf1. apply (Hf1 a1 t1' eq_refl).
      apply (@all_blank_not_nonblank s).
      - rewrite He2. simpl. apply Forall_app. split; assumption.
      - rewrite He1, E1. apply in_or_app. right. left. reflexivity. }
    assert (Hfront : t1 ++ q1 = t2 ++ q2).
    { apply (@front_unique p1 _ p2 _); try assumption.
      - congruence.
      - intros x r H. rewrite E1 in H. simpl in H. injection H as <- _.
        rewrite E1 in Hf1. apply (Hf1 a1 t1'). reflexivity.
      - intros x r H. rewrite E2 in H. simpl in H. injection H as <- _.
        rewrite E2 in Hf2. apply (Hf2 a2 t2'). reflexivity. }
    apply (f_equal (@rev ascii)) in Hfront. rewrite !rev_app_distr in Hfront.
    apply front_unique in Hfront.
    + apply (f_equal (@rev ascii)) in Hfront. rewrite !rev_involutive in Hfront. exact Hfront.
    + apply Forall_rev. assumption.
    + apply Forall_rev. assumption.
    + intros x r H. apply (Hl1 (rev r) x).
      rewrite <- (rev_involutive t1), H. reflexivity.
    + intros x r H. apply (Hl2 (rev r) x).
      rewrite <- (rev_involutive t2), H. reflexivity.
Qed.

Lemma strip_spec s t : strip s = t <-> stripped s t.
Proof.
  split.
  - intros <-. apply strip_stripped.
  - intro H. eapply stripped_unique; [apply strip_stripped|exact H].
Qed.

Lemma strip_idem s : strip (strip s) = strip s.
Proof.
  apply strip_spec. destruct (strip_stripped s) as (p & q & H & _ & _ & Hf & Hl).
  exists [], []. rewrite app_nil_r. repeat split; try constructor; assumption.
Qed.

(* ================= shell quoting (C10) ================= *)
Lemma quote_body_run done s : no_nul s -> forall w,
  sh_run (Sh done (Single w)) (shell_quote_body s) = Some (Sh done (Single (w ++ s))).
Proof.
  induction s as [|c s IH]; intros Hs w; [simpl; rewrite app_nil_r; reflexivity|].
  apply no_nul_cons in Hs. destruct Hs as [Hc Hs]. apply eqb_false in Hc.
  cbn [shell_quote_body]. rewrite sh_run_app.
  assert (Hstep : sh_run (Sh done (Single w))
            (if c == "!"%char then B "'\!'" else if c == SQ then B "'\''" else [c])
          = Some (Sh done (Single (w ++ [c])))).
  { destruct (c == "!"%char) eqn:E1.
    - apply eqb_true in E1. subst. reflexivity.
    - destruct (c == SQ) eqn:E2.
      + apply eqb_true in E2. subst. reflexivity.
      + unfold sh_run, sh_step. cbn [sh_mode_of sh_done]. rewrite Hc, E2. reflexivity. }
  rewrite Hstep, IH by exact Hs. rewrite <- app_assoc. reflexivity.
Qed.

Lemma quote_run_blank done s : no_nul s ->
  sh_run (Sh done Blank) (shell_quote (Some s)) = Some (Sh done (Word s)).
Proof.
  intro Hs. unfold shell_quote. rewrite sh_run_app.
  change (sh_run (Sh done Blank) [SQ]) with (Some (Sh done (Single []))).
  cbv iota beta. rewrite sh_run_app, quote_body_run by exact Hs. reflexivity.
Qed.

Lemma quote_run_word done w s : no_nul s ->
  sh_run (Sh done (Word w)) (shell_quote (Some s)) = Some (Sh done (Word (w ++ s))).
Proof.
  intro Hs. unfold shell_quote. rewrite sh_run_app.
  change (sh_run (Sh done (Word w)) [SQ]) with (Some (Sh done (Single w))).
  cbv iota beta. rewrite sh_run_app, quote_body_run by exact Hs. reflexivity.
Qed.

Lemma quote_one_word s : no_nul s -> sh_words (shell_quote (Some s)) = Some [s].
Proof. intro Hs. unfold sh_words. rewrite quote_run_blank by exact Hs. reflexivity. Qed.

(* after complete words and a blank, the quoted string is exactly the next word,
   and what follows after a blank is read as if it were on its own *)
Lemma quote_in_context pre ws s post : no_nul s ->
  sh_words pre = Some ws ->
  sh_run (Sh [] Blank) (pre ++ [SP] ++ shell_quote (Some s) ++ [SP] ++ post)
  = sh_run (Sh (ws ++ [s]) Blank) post.
Proof.
  intros Hs Hpre. unfold sh_words in Hpre. rewrite sh_run_app.
  destruct (sh_run (Sh [] Blank) pre) as [[d m]|]; [|discriminate].
  assert (Hb : sh_run (Sh d m) [SP] = Some (Sh ws Blank)).
  { destruct m; inversion Hpre; subst; reflexivity. }
  rewrite sh_run_app, Hb, sh_run_app, quote_run_blank by exact Hs.
  reflexivity.
Qed.

(* ================= find (C13) ================= *)
(* length of the run of backslashes that ends the text *)
Fixpoint lead_bsl (l : bytes) : nat :=
  match l with c :: r => if c == BSL then S (lead_bsl r) else 0 | [] => 0 end.
Definition bsl_before (s : bytes) (i : nat) : nat := lead_bsl (rev (firstn i s)).
(* byte i of s is escaped: it comes after an odd number of backslashes *)
Definition escaped (s : bytes) (i : nat) : bool := Nat.odd (bsl_before s i).
Definition unescaped_occ (s : bytes) (c : ascii) (i : nat) : Prop :=
  nth_error s i = Some c /\ escaped s i = false.

Lemma escaped_prefix p rest : escaped (p ++ rest) (length p) = Nat.odd (lead_bsl (rev p)).
Proof.
  unfold escaped, bsl_before. rewrite firstn_app, firstn_all, Nat.sub_diag. simpl.
  rewrite app_nil_r. reflexivity.
Qed.

Lemma lead_bsl_snoc p c : lead_bsl (rev (p ++ [c])) = if c == BSL then S (lead_bsl (rev p)) else 0.
Proof. rewrite rev_app_distr. reflexivity. Qed.

Definition find_post (s : bytes) (c : ascii) (r : res (option nat)) : Prop :=
  match r with
  | Ok (Some i) => unescaped_occ s c i /\ forall j, j < i -> ~ unescaped_occ s c j
  | Ok None => (forall j, ~ unescaped_occ s c j) /\ escaped s (length s) = false
  | UB => (forall j, ~ unescaped_occ s c j) /\ escaped s (length s) = true
  | OutOfFuel => False
  end.

Lemma find_go_spec c : c <> NUL -> c <> BSL -> forall n rest p,
  length rest <= n ->
  no_nul rest ->
  escaped (p ++ rest) (length p) = false ->
  (forall j, j < length p -> ~ unescaped_occ (p ++ rest) c j) ->
  find_post (p ++ rest) c (str_find_go (rest ++ [NUL]) (length p) c).
Proof.
  intros Hc Hcb. induction n as [|n IH]; intros rest p Hn Hnn Hesc Hbefore.
  - destruct rest; [|simpl in Hn; lia]. simpl.
    rewrite app_nil_r in *. split; [|exact Hesc].
    intros j Hj. destruct (Nat.lt_ge_cases j (length p)) as [H|H].
    + exact (Hbefore j H Hj).
    + destruct Hj as [Hj _]. assert (nth_error p j = None) by (apply nth_error_None; lia). congruence.
  - destruct rest as [|x r].
    + simpl. rewrite app_nil_r in *. split; [|exact Hesc].
      intros j Hj. destruct (Nat.lt_ge_cases j (length p)) as [H|H].
      * exact (Hbefore j H Hj).
      * destruct Hj as [Hj _]. assert (nth_error p j = None) by (apply nth_error_None; lia). congruence.
    + simpl in Hn. apply no_nul_cons in Hnn. destruct Hnn as [Hx Hnn].
      cbn [app str_find_go]. apply eqb_false in Hx. rewrite Hx.
      assert (Hat : nth_error (p ++ x :: r) (length p) = Some x) by apply nth_error_mid.
      destruct (x == BSL) eqn:Eb.
      * apply eqb_true in Eb. subst x.
        destruct r as [|y r].
        -- cbn [app str_find_go]. (* only the NUL is left: it is skipped *)
           split.
           ++ intros j Hj. destruct (Nat.lt_trichotomy j (length p)) as [H|[H|H]].
              ** exact (Hbefore j H Hj).
              ** subst. destruct Hj as [Hj _]. rewrite Hat in Hj. congruence.
              ** destruct Hj as [Hj _].
                 assert (nth_error (p ++ [BSL]) j = None)
                   by (apply nth_error_None; rewrite app_length; simpl; lia).
                 congruence.
           ++ rewrite <- (app_nil_r (p ++ [BSL])) at 1.
              rewrite escaped_prefix, lead_bsl_snoc, eqb_refl, Nat.odd_succ.
              rewrite escaped_prefix in Hesc. unfold Nat.odd in Hesc.
              apply negb_false_iff in Hesc. exact Hesc.
        -- apply no_nul_cons in Hnn. destruct Hnn as [Hy Hnn].
           cbn [app]. simpl in Hn.
           assert (Hsplit : p ++ BSL :: y :: r = (p ++ [BSL; y]) ++ r)
             by (rewrite <- app_assoc; reflexivity).
           assert (Hlen : length p + 2 = length (p ++ [BSL; y]))
             by (rewrite app_length; simpl; lia).
           rewrite Hlen, Hsplit. rewrite Hsplit in Hesc, Hbefore, Hat.
           apply IH; [lia|exact Hnn| |].
           ++ rewrite <- Hsplit, Hsplit, escaped_prefix.
              replace (p ++ [BSL; y]) with ((p ++ [BSL]) ++ [y]) by (rewrite <- app_assoc; reflexivity).
              rewrite lead_bsl_snoc. destruct (y == BSL); [|reflexivity].
              rewrite lead_bsl_snoc, eqb_refl.
              rewrite <- Hsplit, escaped_prefix in Hesc. exact Hesc.
           ++ intros j Hj Hocc. rewrite app_length in Hj. simpl in Hj.
              destruct (Nat.lt_trichotomy j (length p)) as [H|[H|H]].
              ** exact (Hbefore j H Hocc).
              ** subst. destruct Hocc as [Hocc _]. rewrite Hat in Hocc. congruence.
              ** assert (Hjj : j = S (length p)) by lia. subst j.
                 destruct Hocc as [_ Hocc].
                 assert (Hs1 : (p ++ [BSL; y]) ++ r = (p ++ [BSL]) ++ y :: r)
                   by (rewrite <- !app_assoc; reflexivity).
                 rewrite Hs1 in Hocc.
                 replace (S (length p)) with (length (p ++ [BSL])) in Hocc
                   by (rewrite app_length; simpl; lia).
                 rewrite escaped_prefix, lead_bsl_snoc, eqb_refl, Nat.odd_succ in Hocc.
                 rewrite <- Hsplit, escaped_prefix in Hesc. unfold Nat.odd in Hesc.
                 apply negb_false_iff in Hesc. congruence.
      * destruct (x == c) eqn:Ec.
        -- apply eqb_true in Ec. subst x. split; [split; assumption|exact Hbefore].
        -- assert (Hsplit : p ++ x :: r = (p ++ [x]) ++ r)
             by (rewrite <- app_assoc; reflexivity).
           replace (length p + 1) with (length (p ++ [x])) by (rewrite app_length; reflexivity).
           rewrite Hsplit in *. apply IH; [lia|exact Hnn| |].
           ++ rewrite escaped_prefix, lead_bsl_snoc, Eb. reflexivity.
           ++ intros j Hj Hocc. rewrite app_length in Hj. simpl in Hj.
              destruct (Nat.eq_dec j (length p)) as [->|Hne].
              ** destruct Hocc as [Hocc _]. rewrite Hat in Hocc. inversion Hocc; subst.
                 rewrite eqb_refl in Ec. discriminate.
              ** apply (Hbefore j); [lia|exact Hocc].
Qed.

Lemma find_spec s c : no_nul s -> c <> NUL -> c <> BSL -> find_post s c (str_find s c).
Proof.
  intros Hs Hc Hb. unfold str_find. apply eqb_false in Hc. rewrite Hc. apply eqb_false in Hc.
  apply (@find_go_spec c Hc Hb (length s) s []); auto.
  intros j Hj; simpl in Hj; lia.
Qed.

(* ================= unescape ================= *)
Lemma unescape_plain s : ~ In BSL s -> unescape s = s.
Proof.
  unfold unescape. induction s as [|c s IH]; intro H; [reflexivity|].
  simpl. destruct (c == BSL) eqn:E.
  - apply eqb_true in E. subst. destruct H. left. reflexivity.
  - simpl. rewrite IH; [reflexivity|]. intro. apply H. right. assumption.
Qed.

(* protect every backslash (and possibly more bytes) with a backslash *)
Definition esc_bytes (p : ascii -> bool) (s : bytes) : bytes :=
  flat_map (fun c => if (c == BSL) || p c then [BSL; c] else [c]) s.

Lemma unescape_esc p s : unescape (esc_bytes p s) = s.
Proof.
  unfold unescape. induction s as [|c s IH]; [reflexivity|].
  simpl. destruct (c == BSL) eqn:E; simpl.
  - change (BSL == BSL) with true. simpl. rewrite andb_false_r. rewrite IH. reflexivity.
  - destruct (p c); simpl.
    + change (BSL == BSL) with true. simpl. rewrite E. simpl. rewrite IH. reflexivity.
    + rewrite E. simpl. rewrite IH. reflexivity.
Qed.
