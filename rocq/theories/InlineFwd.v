(* The inline parser renders markup as InlineSpec.v says. *)
From Verif Require Import Base Utils UtilsProofs Toctree Content InlineSpec InlineProofs.
#[local] Arguments B : simpl never.

(* ---------- more fuel changes nothing ---------- *)
Definition le_rec (r1 r2 : bytes -> nat -> res bytes) : Prop :=
  forall s l, r1 s l <> OutOfFuel -> r2 s l = r1 s l.

Lemma istep_mono r1 r2 s len cur c v : le_rec r1 r2 ->
  istep r1 s len cur c v <> OutOfFuel -> istep r2 s len cur c v = istep r1 s len cur c v.
Proof.
  intros M. unfold istep, emph1, emph2.
  destruct (i_state v); intro H; try reflexivity;
    repeat match goal with
    | |- context [ if ?x then _ else _ ] => destruct x
    | |- context [ do _ <- str_find ?a ?b ; _ ] => destruct (str_find a b) as [[?|]| |]; cbn [rbind] in *
    | |- context [ do _ <- find_pair ?a ?b ?d ?e ?f ; _ ] =>
        destruct (find_pair a b d e f) as [[?|]| |]; cbn [rbind] in *
    | |- context [ match i_link1 v with _ => _ end ] => destruct (i_link1 v)
    end; try reflexivity;
    match goal with
    | |- context [ r2 ?a ?b ] =>
        let K := fresh in
        assert (K : r2 a b = r1 a b) by
          (apply M; intro K; apply H; rewrite K; reflexivity);
        rewrite K; reflexivity
    end.
Qed.
Lemma ifinish_mono r1 r2 s v : le_rec r1 r2 ->
  ifinish r1 s v <> OutOfFuel -> ifinish r2 s v = ifinish r1 s v.
Proof.
  intros M H. unfold ifinish in *. destruct (i_state v); try reflexivity;
    rewrite M; try reflexivity; intro K; apply H; rewrite K; reflexivity.
Qed.
Lemma inl_mono : forall f f' s len cur v, f <= f' ->
  inl f s len cur v <> OutOfFuel -> inl f' s len cur v = inl f s len cur v.
Proof.
  induction f as [|f IH]; intros f' s len cur v L H; [cbn in H; congruence|].
  destruct f' as [|f']; [lia|]. cbn [inl] in *.
  assert (M : le_rec (fun s' l' => inl f s' l' 0 iv0) (fun s' l' => inl f' s' l' 0 iv0)).
  { intros s' l' K. apply IH; [lia|exact K]. }
  destruct (Nat.leb len cur); [apply ifinish_mono; assumption|].
  destruct (crd s cur); cbn [rbind] in *; try reflexivity.
  destruct (istep (fun s' l' => inl f s' l' 0 iv0) s len cur a v) as [[c' v']| |] eqn:E; cbn [rbind] in *;
    try congruence; (rewrite (istep_mono M); rewrite E; [|congruence]); cbn [rbind fst snd] in *; auto.
  apply IH; [lia|exact H].
Qed.

(* ---------- big steps ---------- *)
Definition yields (s : bytes) (len cur : nat) (v : ivars) (t : bytes) : Prop :=
  exists f, inl f s len cur v = Ok t.

Lemma yields_inline s t : no_nul s -> yields s (length s) 0 iv0 t -> inline s = Ok t.
Proof.
  intros Hn [f H]. pose proof (inline_ok Hn) as K. unfold inline in *.
  destruct (Nat.le_gt_cases f (ifuel (length s))) as [L|L].
  - rewrite (@inl_mono f) ; [exact H|exact L|congruence].
  - rewrite <- H. symmetry. apply inl_mono; [lia|].
    intro E. rewrite E in K. exact K.
Qed.

Lemma yields_step s len cur v c cur' v' t :
  cur < len -> nth_error s cur = Some c ->
  (forall rec, istep rec s len cur c v = Ok (cur', v')) ->
  yields s len cur' v' t -> yields s len cur v t.
Proof.
  intros L E St [f Y]. exists (S f). cbn [inl].
  apply Nat.leb_gt in L. rewrite L, (crd_at E). cbn [rbind]. rewrite St. cbn [rbind fst snd]. exact Y.
Qed.
(* a step with a nested call *)
Lemma yields_step_rec s len cur v c cur' v' t s1 l1 t1 :
  cur < len -> nth_error s cur = Some c ->
  yields s1 l1 0 iv0 t1 ->
  (forall rec, rec s1 l1 = Ok t1 -> istep rec s len cur c v = Ok (cur', v')) ->
  yields s len cur' v' t -> yields s len cur v t.
Proof.
  intros L E [f1 Y1] St [f2 Y2]. exists (S (Nat.max f1 f2)). cbn [inl].
  apply Nat.leb_gt in L. rewrite L, (crd_at E). cbn [rbind].
  rewrite St; [cbn [rbind fst snd]|].
  - rewrite (@inl_mono f2); [exact Y2|lia|congruence].
  - rewrite (@inl_mono f1); [exact Y1|lia|congruence].
Qed.

Lemma at_pre (pre : bytes) c r : nth_error (pre ++ c :: r) (length pre) = Some c.
Proof. apply nth_error_mid. Qed.

(* ---------- scanning ---------- *)
Lemma find_free d : mark d -> forall n u rest i, length u <= n -> no_nul u -> free_of d u = true ->
  str_find_go (u ++ rest) i d = str_find_go rest (i + length u) d.
Proof.
  intros [Hd Hb]. induction n as [|n IH]; intros u rest i Hn Hnn H.
  - destruct u; [|cbn in Hn; lia]. cbn [app length]. rewrite Nat.add_0_r. reflexivity.
  - destruct u as [|c u]; [cbn [app length]; rewrite Nat.add_0_r; reflexivity|].
    cbn [app str_find_go free_of length] in *. apply no_nul_cons in Hnn. destruct Hnn as [Hc Hnn].
    apply eqb_false in Hc. rewrite Hc. destruct (c == BSL) eqn:E.
    + destruct u as [|c2 u]; [discriminate|]. cbn [app length] in *.
      apply no_nul_cons in Hnn. rewrite IH; [f_equal; lia|lia|apply Hnn|exact H].
    + apply andb_true_iff in H. destruct H as [H1 H2]. apply negb_true_iff in H1. rewrite H1.
      rewrite IH; [f_equal; lia|lia|exact Hnn|exact H2].
Qed.
Lemma find_free_hit d u z : mark d -> no_nul u -> free_of d u = true ->
  str_find (u ++ d :: z) d = Ok (Some (length u)).
Proof.
  intros Hd Hn H. rewrite (str_find_go_eq _ Hd), <- app_assoc.
  rewrite (find_free Hd _ _ (le_n _) Hn H). cbn [app str_find_go].
  destruct Hd as [Hd Hb]. apply eqb_false in Hd, Hb. rewrite Hd, Hb, eqb_refl. reflexivity.
Qed.
Lemma find_ge d : forall n s i j, length s <= n -> str_find_go s i d = Ok (Some j) -> i <= j.
Proof.
  induction n as [|n IH]; intros s i j Hn H; destruct s as [|x s]; cbn [length] in Hn; try lia;
    cbn [str_find_go] in H; try discriminate.
  destruct (x == NUL); [discriminate|]. destruct (x == BSL).
  - destruct s; [discriminate|]. apply IH in H; [lia|cbn in Hn; lia].
  - destruct (x == d); [injection H as <-; lia|]. apply IH in H; lia.
Qed.

Lemma pair_free_split d : forall n u, length u <= n -> pair_free d u = true ->
  free_of d u = true \/
  exists a b, u = a ++ d :: b /\ free_of d a = true /\ starts d b = false /\ b <> [] /\ pair_free d b = true.
Proof.
  induction n as [|n IH]; intros u Hn H.
  - destruct u; [left; reflexivity|cbn in Hn; lia].
  - destruct u as [|c u]; [left; reflexivity|]. cbn [pair_free free_of length] in *.
    destruct (c == BSL) eqn:E.
    + destruct u as [|c2 u]; [discriminate|]. cbn [length] in Hn.
      destruct (IH u ltac:(lia) H) as [F|(a & b & -> & Ha & Hb)]; [left; exact F|].
      right. exists (c :: c2 :: a), b. split; [reflexivity|]. split; [|exact Hb].
      cbn [free_of]. rewrite E. exact Ha.
    + destruct (c == d) eqn:Ed.
      * destruct u as [|e u]; [discriminate|]. apply andb_true_iff in H. destruct H as [H1 H2].
        right. exists [], (e :: u). apply eqb_true in Ed. subst c. repeat split; auto; [|discriminate].
        cbn [starts]. apply negb_true_iff, H1.
      * destruct (IH u ltac:(lia) H) as [F|(a & b & -> & Ha & Hb)]; [left; exact F|].
        right. exists (c :: a), b. split; [reflexivity|]. split; [|exact Hb].
        cbn [free_of]. rewrite E, Ed. exact Ha.
Qed.

Lemma skipn_pre (pre r : bytes) : skipn (length pre) (pre ++ r) = r.
Proof. rewrite skipn_app, skipn_all, Nat.sub_diag. reflexivity. Qed.
Lemma firstn_pre (pre r : bytes) : firstn (length pre) (pre ++ r) = pre.
Proof. rewrite firstn_app, firstn_all, Nat.sub_diag. cbn [firstn]. apply app_nil_r. Qed.

Lemma find_pair_hit d len : mark d -> forall fuel u pre z,
  no_nul u -> pair_free d u = true -> length pre + length u < len -> length u < fuel ->
  find_pair fuel (pre ++ u ++ d :: d :: z) len (length pre) d = Ok (Some (length pre + length u)).
Proof.
  intro Hd. induction fuel as [|f IH]; intros u pre z Hn H Hlen Hf; [lia|].
  cbn [find_pair]. rewrite skipn_pre.
  destruct (@pair_free_split d _ u (le_n _) H) as [F|(a & b & -> & Ha & Hb1 & Hb2 & Hb3)].
  - rewrite (@find_free_hit d u (d :: z) Hd Hn F). cbn [rbind].
    apply Nat.ltb_lt in Hlen. rewrite Hlen.
    rewrite (@crd_at _ _ d); [cbn [rbind]; rewrite eqb_refl; reflexivity|].
    replace (pre ++ u ++ d :: d :: z) with ((pre ++ u ++ [d]) ++ d :: z) by (rewrite <- !app_assoc; reflexivity).
    replace (length pre + length u + 1) with (length (pre ++ u ++ [d])) by (rewrite !app_length; cbn; lia).
    apply at_pre.
  - rewrite app_length in *. cbn [length] in *.
    apply no_nul_app in Hn. destruct Hn as [Hna Hnb]. apply no_nul_cons in Hnb. destruct Hnb as [_ Hnb].
    rewrite <- app_assoc. cbn [app]. rewrite (@find_free_hit d a _ Hd Hna Ha). cbn [rbind].
    assert (L : Nat.ltb (length pre + length a) len = true) by (apply Nat.ltb_lt; lia). rewrite L.
    destruct b as [|e b]; [congruence|]. cbn [starts] in Hb1.
    rewrite (@crd_at _ _ e); [cbn [rbind]; rewrite Hb1|].
    + cbn [length] in *. assert (L2 : Nat.ltb (length pre + length a + 1) len = true) by (apply Nat.ltb_lt; lia).
      rewrite L2. specialize (IH (e :: b) (pre ++ a ++ [d]) z Hnb Hb3).
      rewrite !app_length in IH. cbn [length] in IH.
      replace (length pre + (length a + 1)) with (length pre + length a + 1) in IH by lia.
      replace ((pre ++ a ++ [d]) ++ (e :: b) ++ d :: d :: z)
        with (pre ++ a ++ d :: (e :: b) ++ d :: d :: z) in IH
        by (rewrite <- !app_assoc; reflexivity).
      rewrite IH by lia. f_equal. f_equal. lia.
    + replace (pre ++ a ++ d :: (e :: b) ++ d :: d :: z) with ((pre ++ a ++ [d]) ++ e :: b ++ d :: d :: z)
        by (rewrite <- !app_assoc; reflexivity).
      replace (length pre + length a + 1) with (length (pre ++ a ++ [d])) by (rewrite !app_length; cbn; lia).
      apply at_pre.
Qed.

Lemma unbackslash_eq : forall n s, length s <= n -> unescape s = unbackslash s.
Proof.
  unfold unescape. induction n as [|n IH]; intros s Hn.
  - destruct s; [reflexivity|cbn in Hn; lia].
  - destruct s as [|c s]; [reflexivity|]. cbn [unescape_go unbackslash length] in *.
    destruct (c == BSL) eqn:E; cbn [andb negb].
    + destruct s as [|d s]; [reflexivity|]. cbn [unescape_go length] in *.
      rewrite andb_false_r. rewrite IH by lia. reflexivity.
    + rewrite IH by lia. reflexivity.
Qed.

(* ---------- runs ---------- *)
Definition go (pre rest : bytes) (len : nat) (v : ivars) (t : bytes) : Prop :=
  yields (pre ++ rest) len (length pre) v t.

Lemma go_move pre x rest len v t :
  go (pre ++ x) rest len v t -> yields (pre ++ x ++ rest) len (length pre + length x) v t.
Proof. unfold go. rewrite app_length, <- app_assoc. auto. Qed.

Lemma go_step pre c rest len v x v' t :
  length pre < len ->
  (forall rec, istep rec (pre ++ c :: x ++ rest) len (length pre) c v = Ok (length pre + 1 + length x, v')) ->
  go (pre ++ c :: x) rest len v' t -> go pre (c :: x ++ rest) len v t.
Proof.
  intros L St G. apply go_move in G. cbn [app length] in G.
  eapply yields_step; [exact L|apply at_pre|exact St|].
  replace (length pre + 1 + length x) with (length pre + S (length x)) by lia. exact G.
Qed.
Lemma go_stay pre c rest len v v' t :
  length pre < len ->
  (forall rec, istep rec (pre ++ c :: rest) len (length pre) c v = Ok (length pre, v')) ->
  go pre (c :: rest) len v' t -> go pre (c :: rest) len v t.
Proof. intros L St G. eapply yields_step; [exact L|apply at_pre|exact St|exact G]. Qed.
Lemma go_next pre c rest len v v' t :
  length pre < len ->
  (forall rec, istep rec (pre ++ c :: rest) len (length pre) c v = Ok (length pre + 1, v')) ->
  go (pre ++ [c]) rest len v' t -> go pre (c :: rest) len v t.
Proof.
  intros L St G. apply (@go_step pre c rest len v [] v' t L); [|exact G].
  intro rec. cbn [app length]. rewrite Nat.add_0_r. apply St.
Qed.
Lemma go_rec pre c rest len v x v' t s1 l1 t1 :
  length pre < len -> yields s1 l1 0 iv0 t1 ->
  (forall rec, rec s1 l1 = Ok t1 ->
    istep rec (pre ++ c :: x ++ rest) len (length pre) c v = Ok (length pre + 1 + length x, v')) ->
  go (pre ++ c :: x) rest len v' t -> go pre (c :: x ++ rest) len v t.
Proof.
  intros L Y St G. apply go_move in G. cbn [app length] in G.
  eapply yields_step_rec; [exact L|apply at_pre|exact Y|exact St|].
  replace (length pre + 1 + length x) with (length pre + S (length x)) by lia. exact G.
Qed.
Lemma go_end pre rest len v t :
  length pre = len -> i_state v = IStart -> t = i_rv v -> go pre rest len v t.
Proof.
  intros E St ->. exists 1. cbn [inl]. rewrite E, Nat.leb_refl.
  unfold ifinish. rewrite St. reflexivity.
Qed.

Lemma not_last a len : a + 1 < len -> Nat.eqb a (len - 1) = false.
Proof. intro H. apply Nat.eqb_neq. lia. Qed.
Lemma is_last a len : a + 1 = len -> Nat.eqb a (len - 1) = true.
Proof. intro H. apply Nat.eqb_eq. lia. Qed.

Lemma special_all c : ~ In c special ->
  (c == BSL) = false /\ (c == SP) = false /\ (c == "*"%char) = false /\ (c == "_"%char) = false
  /\ (c == "`"%char) = false /\ (c == "["%char) = false /\ (c == "!"%char) = false /\ (c == "-"%char) = false.
Proof.
  intro H. unfold special in H. cbv [B list_ascii_of_string In] in H.
  repeat split; apply eqb_false; intro; subst; apply H; auto 12.
Qed.

(* entering a marker *)
Lemma start_marker rec s len cur c v st : i_state v = IStart -> cur + 1 < len ->
  (c = "*"%char /\ st = IAst) \/ (c = "_"%char /\ st = IUnd) \/ (c = "`"%char /\ st = ITick)
  \/ (c = "["%char /\ st = ILinkStart) \/ (c = "!"%char /\ st = IImgStart)
  \/ (c = "-"%char /\ st = IEndash) \/ (c = SP /\ st = IBreakStart) ->
  istep rec s len cur c v = Ok (cur + 1, goto st v).
Proof.
  intros St L H. unfold istep. rewrite St, (not_last L).
  destruct H as [[-> ->]|[[-> ->]|[[-> ->]|[[-> ->]|[[-> ->]|[[-> ->]|[-> ->]]]]]]]; reflexivity.
Qed.

Lemma go_marker pre c rest len v st t : i_state v = IStart -> length pre + 1 < len ->
  (c = "*"%char /\ st = IAst) \/ (c = "_"%char /\ st = IUnd) \/ (c = "`"%char /\ st = ITick)
  \/ (c = "["%char /\ st = ILinkStart) \/ (c = "!"%char /\ st = IImgStart)
  \/ (c = "-"%char /\ st = IEndash) \/ (c = SP /\ st = IBreakStart) ->
  go (pre ++ [c]) rest len (goto st v) t -> go pre (c :: rest) len v t.
Proof.
  intros St L H G. eapply go_next; [lia| |exact G]. intro rec. apply start_marker; auto.
Qed.

Lemma snoc_length (pre : bytes) c : length (pre ++ [c]) = length pre + 1.
Proof. rewrite app_length. reflexivity. Qed.

(* runs of spaces *)
Lemma go_spaces n : forall pre rest len v k t,
  length pre + n < len ->
  go (pre ++ repeat SP n) rest len (IV IBreak (i_rv v) (i_start v) (k + n) (i_slink v) (i_link1 v)) t ->
  go pre (repeat SP n ++ rest) len (IV IBreak (i_rv v) (i_start v) k (i_slink v) (i_link1 v)) t.
Proof.
  induction n as [|n IH]; intros pre rest len v k t L G.
  - cbn [repeat app] in *. rewrite app_nil_r, Nat.add_0_r in G. exact G.
  - cbn [repeat app] in *. eapply go_next; [lia| |].
    + intro rec. unfold istep. hsimp. rewrite eqb_refl, not_last by lia. reflexivity.
    + apply IH; [rewrite snoc_length; lia|]. rewrite <- app_assoc. cbn [app].
      replace (k + 1 + n) with (k + S n) by lia. exact G.
Qed.

(* the text of a link *)
Lemma go_balanced : forall n tt pre rest len rv start count slink l1 t,
  length tt <= n -> balanced count tt = true -> length pre + length tt < len ->
  go (pre ++ tt) rest len (IV ILinkContent rv start 1 slink l1) t ->
  go pre (tt ++ rest) len (IV ILinkContent rv start (1 + count) slink l1) t.
Proof.
  induction n as [|n IH]; intros tt pre rest len rv start count slink l1 t Hn Hb L G.
  - destruct tt; [|cbn in Hn; lia]. cbn [balanced] in Hb. apply Nat.eqb_eq in Hb. subst count.
    rewrite app_nil_r in G. exact G.
  - destruct tt as [|c tt].
    { cbn [balanced] in Hb. apply Nat.eqb_eq in Hb. subst count. rewrite app_nil_r in G. exact G. }
    cbn [balanced length app] in *. destruct (c == BSL) eqn:Eb.
    + destruct tt as [|d tt]; [discriminate|]. cbn [app length] in *.
      apply (@go_step pre c (tt ++ rest) len _ [d] (IV ILinkContent rv start (1 + count) slink l1) t ltac:(lia)).
      { intro rec. unfold istep. hsimp. rewrite Eb. cbn [length]. do 2 f_equal. lia. }
      apply IH; [lia|exact Hb|rewrite app_length; cbn [length]; lia|]. rewrite <- app_assoc. exact G.
    + destruct (c == "["%char) eqn:E1.
      { eapply go_next; [lia| |].
        - intro rec. unfold istep. hsimp. rewrite Eb, E1. reflexivity.
        - hsimp. replace (1 + count + 1) with (1 + S count) by lia.
          apply IH; [lia|exact Hb|rewrite snoc_length; lia|]. rewrite <- app_assoc. exact G. }
      destruct (c == "]"%char) eqn:E2.
      { destruct count as [|count]; [discriminate|].
        eapply go_next; [lia| |].
        - intro rec. unfold istep. hsimp. rewrite Eb, E1, E2. cbn [Nat.eqb Nat.add]. reflexivity.
        - hsimp. cbn [Nat.sub]. change (S count) with (1 + count).
          apply IH; [lia|exact Hb|rewrite snoc_length; lia|]. rewrite <- app_assoc. exact G. }
      { eapply go_next; [lia| |].
        - intro rec. unfold istep. hsimp. rewrite Eb, E1, E2. reflexivity.
        - apply IH; [lia|exact Hb|rewrite snoc_length; lia|]. rewrite <- app_assoc. exact G. }
Qed.

(* scanning up to an unescaped [d] in the states that only look for it *)
Definition scans (st : istate) (d : ascii) : Prop :=
  (st = ILinkUrl /\ d = ")"%char) \/ (st = IImgAlt /\ d = "]"%char) \/ (st = IImgUrl /\ d = ")"%char).
Lemma go_scan st d : scans st d -> forall n u pre rest len rv start count slink l1 t,
  length u <= n -> free_of d u = true -> length pre + length u < len ->
  go (pre ++ u) rest len (IV st rv start count slink l1) t ->
  go pre (u ++ rest) len (IV st rv start count slink l1) t.
Proof.
  intro Sc. induction n as [|n IH]; intros u pre rest len rv start count slink l1 t Hn Hf L G.
  - destruct u; [|cbn in Hn; lia]. rewrite app_nil_r in G. exact G.
  - destruct u as [|c u]; [rewrite app_nil_r in G; exact G|].
    cbn [free_of length app] in *. destruct (c == BSL) eqn:Eb.
    + destruct u as [|e u]; [discriminate|]. cbn [app length] in *.
      apply (@go_step pre c (u ++ rest) len _ [e] (IV st rv start count slink l1) t ltac:(lia)).
      { intro rec. unfold istep. destruct Sc as [[-> ->]|[[-> ->]|[-> ->]]]; hsimp; rewrite Eb; cbn [length];
          do 2 f_equal; lia. }
      apply IH; [lia|exact Hf|rewrite app_length; cbn [length]; lia|]. rewrite <- app_assoc. exact G.
    + apply andb_true_iff in Hf. destruct Hf as [H1 H2]. apply negb_true_iff in H1.
      eapply go_next; [lia| |].
      * intro rec. unfold istep. destruct Sc as [[-> ->]|[[-> ->]|[-> ->]]]; hsimp; rewrite Eb, H1; reflexivity.
      * apply IH; [lia|exact H2|rewrite snoc_length; lia|]. rewrite <- app_assoc. exact G.
Qed.

Lemma blank4_sp c : In c [SP; TAB; LF; CR] -> is_sp c || is_nl c = true.
Proof. intros [<-|[<-|[<-|[<-|[]]]]]; reflexivity. Qed.
Lemma go_blank st w : st = ILinkUrlStart \/ st = IImgUrlStart -> blank4 w ->
  forall pre rest len rv start count slink l1 t,
  length pre + length w < len ->
  go (pre ++ w) rest len (IV st rv start count slink l1) t ->
  go pre (w ++ rest) len (IV st rv start count slink l1) t.
Proof.
  intros Hs Hw. induction Hw as [|c w Hc Hw IH]; intros pre rest len rv start count slink l1 t L G.
  - rewrite app_nil_r in G. exact G.
  - cbn [app length] in *. eapply go_next; [lia| |].
    + intro rec. unfold istep. destruct Hs as [-> | ->]; hsimp; rewrite (blank4_sp Hc); reflexivity.
    + apply IH; [rewrite snoc_length; lia|]. rewrite <- app_assoc. exact G.
Qed.

Lemma dup_mid pre x rest : dup (pre ++ x ++ rest) (length pre) (length pre + length x) = x.
Proof. rewrite dup_sub by lia. apply sub_mid. Qed.

Lemma balanced_even : forall n count s, length s <= n -> balanced count s = true -> odd_tail s = false.
Proof.
  assert (Hc : forall c s, c <> BSL -> odd_tail (c :: s) = odd_tail s)
    by (intros c s H; exact (@odd_tail_mid [] c s H)).
  induction n as [|n IH]; intros count s Hn H; destruct s as [|c s]; try reflexivity; cbn [length] in *; [lia|].
  cbn [balanced] in H. destruct (c == BSL) eqn:Eb.
  - destruct s as [|d s]; [discriminate|]. apply eqb_true in Eb. subst c. cbn [length] in *.
    apply IH in H; [|lia]. destruct (d == BSL) eqn:Ed.
    + apply eqb_true in Ed. subst d. exact H.
    + apply eqb_false in Ed. change (odd_tail ([BSL] ++ d :: s) = false). rewrite odd_tail_mid by assumption. exact H.
  - apply eqb_false in Eb. rewrite Hc by assumption.
    destruct (c == "["%char); [(eapply IH; [|exact H]; lia)|].
    destruct (c == "]"%char); [|(eapply IH; [|exact H]; lia)].
    destruct count; [discriminate|]. (eapply IH; [|exact H]; lia).
Qed.
Lemma wsafe_cons c s : odd_tail s = false -> wsafe (c :: s).
Proof.
  intros H a d b E Hd. destruct a as [|a0 a]; cbn [app] in E; injection E as E1 E2.
  - subst. exact H.
  - subst. rewrite odd_tail_mid in H; assumption.
Qed.

Lemma repeat_split n : repeat SP (2 + n) = SP :: SP :: repeat SP n. Proof. reflexivity. Qed.

Lemma skipn_more (pre x r : bytes) : skipn (length pre + length x) (pre ++ x ++ r) = r.
Proof. rewrite <- app_length, app_assoc. apply skipn_pre. Qed.

Ltac lens := repeat (progress (rewrite ?app_length in *; cbn [length] in *)); lia.

Lemma em_state d : In d (B "*_") ->
  exists st st2, ((d = "*"%char /\ st = IAst /\ st2 = IAst2) \/ (d = "_"%char /\ st = IUnd /\ st2 = IUnd2)).
Proof. cbv [B list_ascii_of_string In]. intros [<-|[<-|[]]]; eauto 8. Qed.

Ltac sapp := subst; hsimp; repeat (progress (rewrite <- ?app_assoc; cbn [app])); reflexivity.
Ltac fin IH Hn Hw := eapply IH; [eassumption|reflexivity| |exact Hn|exact Hw| |]; [sapp|lens|sapp].

Lemma no_nul_mid a (b r : bytes) : no_nul (a ++ b ++ r) -> no_nul b.
Proof. intro H. apply no_nul_app in H. destruct H as [_ H]. apply no_nul_app in H. apply H. Qed.
Lemma no_nul_end (a b : bytes) : no_nul (a ++ b) -> no_nul b.
Proof. intro H. apply no_nul_app in H. apply H. Qed.
Lemma wsafe_end a b : wsafe (a ++ b) -> wsafe b.
Proof. intro H. pose proof (@wsafe_skipn _ (length a) H) as K. rewrite skipn_pre in K. exact K. Qed.

Lemma find_pair_miss d len : mark d -> forall fuel x pre post,
  no_nul (pre ++ x ++ post) -> wsafe (pre ++ x ++ post) -> after_mark (pre ++ x ++ post) (length pre) ->
  pair_free d x = true -> len = length pre + length x -> length x < fuel ->
  find_pair fuel (pre ++ x ++ post) len (length pre) d = Ok None.
Proof.
  intro Hd. induction fuel as [|f IH]; intros x pre post Hn Hw Ha H Hlen Hf; [lia|].
  cbn [find_pair]. rewrite skipn_pre.
  assert (Hx : no_nul x) by exact (no_nul_mid Hn).
  destruct (@pair_free_split d _ x (le_n _) H) as [F|(a & b & -> & Fa & Hb1 & Hb2 & Hb3)].
  - pose proof (@find_res (pre ++ x ++ post) (length pre) d Hd) as FR. rewrite skipn_pre in FR.
    destruct (str_find (x ++ post) d) as [[j|]| |] eqn:Ej; cbn [rbind]; try reflexivity.
    + rewrite (str_find_go_eq _ Hd), <- app_assoc, (find_free Hd _ _ (le_n _) Hx F) in Ej.
      apply (find_ge (le_n _)) in Ej.
      assert (L1 : Nat.ltb (length pre + j) len = false) by (apply Nat.ltb_ge; lia).
      assert (L2 : Nat.ltb (length pre + j + 1) len = false) by (apply Nat.ltb_ge; lia).
      rewrite L1. cbn [rbind]. rewrite L2. reflexivity.
    + exfalso. exact (FR Hn Ha Hw).
    + destruct FR.
  - destruct b as [|e b]; [congruence|]. cbn [starts] in Hb1. rewrite app_length in *. cbn [length] in *.
    assert (Hna : no_nul a) by (apply no_nul_app in Hx; apply Hx).
    rewrite <- app_assoc. cbn [app]. rewrite (@find_free_hit d a _ Hd Hna Fa). cbn [rbind].
    assert (L1 : Nat.ltb (length pre + length a) len = true) by (apply Nat.ltb_lt; lia). rewrite L1.
    assert (Ee : pre ++ a ++ d :: e :: b ++ post = (pre ++ a ++ [d]) ++ (e :: b) ++ post) by (rewrite <- !app_assoc; reflexivity).
    assert (El : length pre + length a + 1 = length (pre ++ a ++ [d])) by (rewrite !app_length; cbn [length]; lia).
    rewrite (@crd_at _ _ e) by (rewrite Ee, El; apply at_pre). cbn [rbind]. rewrite Hb1.
    assert (L2 : Nat.ltb (length pre + length a + 1) len = true) by (apply Nat.ltb_lt; lia). rewrite L2, Ee, El.
    assert (Ew : pre ++ (a ++ d :: e :: b) ++ post = (pre ++ a ++ [d]) ++ (e :: b) ++ post) by (rewrite <- !app_assoc; reflexivity).
    rewrite Ew in *. apply IH; [assumption|assumption| |exact Hb3|cbn [length]; lia|cbn [length]; lia].
    split; [lens|]. exists d. split; [|apply Hd].
    replace (length (pre ++ a ++ [d]) - 1) with (length (pre ++ a)) by (rewrite !app_length; cbn [length]; lia).
    replace ((pre ++ a ++ [d]) ++ (e :: b) ++ post) with ((pre ++ a) ++ d :: (e :: b) ++ post) by (rewrite <- !app_assoc; reflexivity).
    apply at_pre.
Qed.

(* the end of the text within a link or an image *)
Lemma yields_link s len cur v t1 T : len <= cur -> In (i_state v) [ILinkContent; ILinkUrlStart; ILinkUrl] ->
  yields (skipn (i_slink v) s) (length (skipn (i_slink v) s)) 0 iv0 t1 -> T = i_rv v ++ B "[" ++ unescape t1 -> yields s len cur v T.
Proof.
  intros L St [f Y] ->. exists (S f). cbn [inl]. apply Nat.leb_le in L. rewrite L. unfold ifinish.
  destruct St as [<-|[<-|[<-|[]]]]; rewrite Y; reflexivity.
Qed.
Lemma yields_image s len cur v t1 T : len <= cur -> In (i_state v) [IImgAlt; IImgUrlStart; IImgUrl] ->
  yields (skipn (i_slink v) s) (length (skipn (i_slink v) s)) 0 iv0 t1 -> T = i_rv v ++ B "!" ++ B "[" ++ unescape t1 -> yields s len cur v T.
Proof.
  intros L St [f Y] ->. exists (S f). cbn [inl]. apply Nat.leb_le in L. rewrite L. unfold ifinish.
  destruct St as [<-|[<-|[<-|[]]]]; rewrite Y; reflexivity.
Qed.
Lemma go_unclosed : forall n tt pre len rv start count slink l1 T,
  length tt <= n -> unclosed count tt = true -> len = length pre + length tt ->
  (forall cur k, len <= cur -> yields (pre ++ tt) len cur (IV ILinkContent rv start k slink l1) T) ->
  go pre tt len (IV ILinkContent rv start (1 + count) slink l1) T.
Proof.
  induction n as [|n IH]; intros tt pre len rv start count slink l1 T Hn Hb L G.
  - destruct tt; [|cbn in Hn; lia]. apply G. cbn [length] in L. lia.
  - destruct tt as [|c tt]; [apply G; cbn [length] in L; lia|].
    cbn [unclosed length] in *. destruct (c == BSL) eqn:Eb.
    + destruct tt as [|d tt].
      { unfold go. eapply yields_step; [| apply at_pre | |].
        - lia.
        - intro rec. unfold istep. hsimp. rewrite Eb. reflexivity.
        - apply G. cbn [length] in L. lia. }
      cbn [length] in *.
      apply (@go_step pre c tt len _ [d] (IV ILinkContent rv start (1 + count) slink l1) T ltac:(lia)).
      { intro rec. unfold istep. hsimp. rewrite Eb. cbn [length]. do 2 f_equal. lia. }
      apply IH; [lia|exact Hb|rewrite app_length; cbn [length]; lia|]. rewrite <- app_assoc. exact G.
    + destruct (c == "["%char) eqn:E1.
      { eapply go_next; [lia| |].
        - intro rec. unfold istep. hsimp. rewrite Eb, E1. reflexivity.
        - hsimp. replace (1 + count + 1) with (1 + S count) by lia.
          apply IH; [lia|exact Hb|rewrite snoc_length; lia|]. rewrite <- app_assoc. exact G. }
      destruct (c == "]"%char) eqn:E2.
      { destruct count as [|count]; [discriminate|].
        eapply go_next; [lia| |].
        - intro rec. unfold istep. hsimp. rewrite Eb, E1, E2. cbn [Nat.eqb Nat.add]. reflexivity.
        - hsimp. cbn [Nat.sub]. change (S count) with (1 + count).
          apply IH; [lia|exact Hb|rewrite snoc_length; lia|]. rewrite <- app_assoc. exact G. }
      { eapply go_next; [lia| |].
        - intro rec. unfold istep. hsimp. rewrite Eb, E1, E2. reflexivity.
        - apply IH; [lia|exact Hb|rewrite snoc_length; lia|]. rewrite <- app_assoc. exact G. }
Qed.
Lemma go_without st d : scans st d -> forall n u pre len rv start count slink l1 T,
  length u <= n -> without d u = true -> len = length pre + length u ->
  (forall cur, len <= cur -> yields (pre ++ u) len cur (IV st rv start count slink l1) T) ->
  go pre u len (IV st rv start count slink l1) T.
Proof.
  intro Sc. induction n as [|n IH]; intros u pre len rv start count slink l1 T Hn Hf L G.
  - destruct u; [|cbn in Hn; lia]. apply G. cbn [length] in L. lia.
  - destruct u as [|c u]; [apply G; cbn [length] in L; lia|].
    cbn [without length] in *. destruct (c == BSL) eqn:Eb.
    + destruct u as [|e u].
      { unfold go. eapply yields_step; [| apply at_pre | |].
        - lia.
        - intro rec. unfold istep. destruct Sc as [[-> ->]|[[-> ->]|[-> ->]]]; hsimp; rewrite Eb; reflexivity.
        - apply G. cbn [length] in L. lia. }
      cbn [length] in *.
      apply (@go_step pre c u len _ [e] (IV st rv start count slink l1) T ltac:(lia)).
      { intro rec. unfold istep. destruct Sc as [[-> ->]|[[-> ->]|[-> ->]]]; hsimp; rewrite Eb; cbn [length];
          do 2 f_equal; lia. }
      apply IH; [lia|exact Hf|rewrite app_length; cbn [length]; lia|]. rewrite <- app_assoc. exact G.
    + apply andb_true_iff in Hf. destruct Hf as [H1 H2]. apply negb_true_iff in H1.
      eapply go_next; [lia| |].
      * intro rec. unfold istep. destruct Sc as [[-> ->]|[[-> ->]|[-> ->]]]; hsimp; rewrite Eb, H1; reflexivity.
      * apply IH; [lia|exact H2|rewrite snoc_length; lia|]. rewrite <- app_assoc. exact G.
Qed.
Lemma go_blank_end st w : st = ILinkUrlStart \/ st = IImgUrlStart -> blank4 w ->
  forall pre len rv start count slink l1 T, len = length pre + length w ->
  (forall cur, len <= cur -> yields (pre ++ w) len cur (IV st rv start count slink l1) T) ->
  go pre w len (IV st rv start count slink l1) T.
Proof.
  intros Hs Hw. induction Hw as [|c w Hc Hw IH]; intros pre len rv start count slink l1 T L G; [apply G; cbn [length] in L; lia|].
  cbn [length] in *. eapply go_next; [lia| |].
  - intro rec. unfold istep. destruct Hs as [-> | ->]; hsimp; rewrite (blank4_sp Hc); reflexivity.
  - apply IH; [rewrite snoc_length; lia|]. rewrite <- app_assoc. exact G.
Qed.

Lemma means_go top x y : meaning top x y ->
  forall pre post len v s T, (top = true -> post = []) -> i_state v = IStart -> s = pre ++ x ++ post -> no_nul s -> wsafe s ->
  len = length pre + length x -> T = i_rv v ++ y -> go pre (x ++ post) len v T.
Proof.
  induction 1 as [ top | top c e x y Hc He Hm IH | top c e He | top c e x y He Hm IH | top x y Hs Hm IH | top x y Hs Hm IH | top n c x y Hc Hm IH | top n c x y Hc Hm IH | top n | top x y Hs Hm IH | top x y Hs Hm IH | top x y Hm IH | top d u w x y Hd Hu Hf Hm1 IH1 Hm2 IH2 | top d u w x y Hd Hp Hm1 IH1 Hm2 IH2 | top u w x y Hu Hf Ht Hm IH | top u w x y Hp Ht Hm IH | top d x y Hd Hx Hf Hm IH | top c tt w bl u x y Hc Hb Hm1 IH1 Hw Hf Hm2 IH2 | top u x y Hp Hm IH | top a bl u x y Ha Hw Hf Hm IH | top d k x y Hd Hx Hp Hm IH | top c tt bl z x y Hc Hb Hw Hz Hm IH | top a bl z x y Ha Hw Hz Hm IH | top x y Et Hx Hm IH | top x y Et Hx Hm IH ];
    intros pre post len v s T Htp St Es Hn Hw' Hlen HT.
  - (* nil *) apply go_end; [lens|exact St|]. rewrite app_nil_r in HT. exact HT.
  - (* plain *)
    cbn [app length] in *. apply text_byte_esc1 in He.
    eapply go_next with (v' := emit (esc1 c) IStart v); [lia| |].
    + intro rec. unfold istep. rewrite St.
      destruct (special_all Hc) as (-> & -> & -> & -> & -> & -> & -> & ->).
      destruct (Nat.eqb (length pre) (len - 1)); reflexivity.
    + fin IH Hn Hw'.
  - (* last *)
    cbn [app length] in *. apply text_byte_esc1 in He.
    eapply go_next with (v' := emit (esc1 c) IStart v); [lia| |].
    + intro rec. unfold istep. rewrite St, is_last by lia. reflexivity.
    + apply go_end; [lens|reflexivity|sapp].
  - (* escape *)
    cbn [app length] in *. apply text_byte_esc1 in He.
    apply (@go_step pre BSL (x ++ post) len v [c] (emit (esc1 c) IStart v)); [lia| |].
    + intro rec. unfold istep. rewrite St, not_last by lia. rewrite eqb_refl.
      rewrite (@crd_at _ _ c); [cbn [rbind length]; do 2 f_equal; lia|].
      cbn [app]. change (pre ++ BSL :: c :: x ++ post) with (pre ++ [BSL] ++ c :: x ++ post).
      rewrite app_assoc. replace (length pre + 1) with (length (pre ++ [BSL])) by lens. apply at_pre.
    + fin IH Hn Hw'.
  - (* bang *)
    cbn [app length] in *. destruct x as [|c x].
    + inv Hm. cbn [app length] in *. eapply go_next with (v' := emit (B "!") IStart v); [lia| |].
      * intro rec. unfold istep. rewrite St, is_last by lia. reflexivity.
      * apply go_end; [lens|reflexivity|reflexivity].
    + cbn [app length starts] in *. eapply go_marker with (st := IImgStart); [exact St|lia|auto 12|].
      eapply go_stay with (v' := emit (B "!") IStart v); [lens| |].
      * intro rec. unfold istep. hsimp. rewrite Hs. reflexivity.
      * change (c :: x ++ post) with ((c :: x) ++ post). fin IH Hn Hw'.
  - (* space *)
    cbn [app length] in *. destruct x as [|c x].
    + inv Hm. cbn [app length] in *. eapply go_next with (v' := emit [SP] IStart v); [lia| |].
      * intro rec. unfold istep. rewrite St, is_last by lia. reflexivity.
      * apply go_end; [lens|reflexivity|reflexivity].
    + cbn [app length starts] in *. eapply go_marker with (st := IBreakStart); [exact St|lia|auto 12|].
      eapply go_stay with (v' := emit [SP] IStart v); [lens| |].
      * intro rec. unfold istep. hsimp. rewrite Hs. reflexivity.
      * change (c :: x ++ post) with ((c :: x) ++ post). fin IH Hn Hw'.
  - (* spaces before something else *)
    rewrite app_length, repeat_length in Hlen. rewrite <- app_assoc in *. rewrite repeat_split in *.
    cbn [app length] in *.
    eapply go_marker with (st := IBreakStart); [exact St|lia|auto 12|].
    eapply go_next with (v' := IV IBreak (i_rv v) (i_start v) 2 (i_slink v) (i_link1 v)); [lens| |].
    { intro rec. unfold istep. hsimp. rewrite eqb_refl, not_last by lens. reflexivity. }
    apply go_spaces; [lens|].
    assert (El : length (((pre ++ [SP]) ++ [SP]) ++ repeat SP n) = length pre + 2 + n)
      by (rewrite !app_length, repeat_length; cbn [length]; lia).
    eapply go_stay with (v' := IV IStart (i_rv v ++ repeat SP (2 + n)) (i_start v) (2 + n) (i_slink v) (i_link1 v)).
    { rewrite El. lia. }
    { intro rec. unfold istep. hsimp.
      assert (N1 : (c == SP) = false) by (apply eqb_false; intro; subst; apply Hc; cbn; auto).
      assert (N2 : is_nl c = false).
      { unfold is_nl. apply orb_false_iff. split; apply eqb_false; intro; subst; apply Hc; cbn; auto. }
      rewrite N1, N2. reflexivity. }
    change (c :: x ++ post) with ((c :: x) ++ post).
    eapply IH; [exact Htp|reflexivity| |exact Hn|exact Hw'| |]; [sapp|rewrite El; cbn [length]; lia|].
    rewrite repeat_split. sapp.
  - (* line break *)
    rewrite app_length, repeat_length in Hlen. rewrite <- app_assoc in *. rewrite repeat_split in *.
    cbn [app length] in *.
    eapply go_marker with (st := IBreakStart); [exact St|lia|auto 12|].
    eapply go_next with (v' := IV IBreak (i_rv v) (i_start v) 2 (i_slink v) (i_link1 v)); [lens| |].
    { intro rec. unfold istep. hsimp. rewrite eqb_refl, not_last by lens. reflexivity. }
    apply go_spaces; [lens|].
    assert (El : length (((pre ++ [SP]) ++ [SP]) ++ repeat SP n) = length pre + 2 + n)
      by (rewrite !app_length, repeat_length; cbn [length]; lia).
    eapply go_next with (v' := IV IStart (i_rv v ++ B "<br />" ++ [c]) (i_start v) (2 + n) (i_slink v) (i_link1 v)).
    { rewrite El. lia. }
    { intro rec. unfold istep. hsimp.
      assert (N1 : (c == SP) = false) by (destruct Hc as [<-|[<-|[]]]; reflexivity).
      assert (N2 : is_nl c = true) by (destruct Hc as [<-|[<-|[]]]; reflexivity).
      rewrite N1, N2. reflexivity. }
    eapply IH; [exact Htp|reflexivity| |exact Hn|exact Hw'| |]; [sapp|rewrite app_length, El; cbn [length]; lia|sapp].
  - (* trailing spaces *)
    rewrite repeat_length in Hlen. rewrite repeat_split in *. cbn [app length] in *.
    eapply go_marker with (st := IBreakStart); [exact St|lia|auto 12|].
    destruct n as [|n].
    + cbn [repeat app] in *. eapply go_next with (v' := emit (B "<br />") IStart v); [lens| |].
      * intro rec. unfold istep. hsimp. rewrite eqb_refl, is_last by lens. reflexivity.
      * apply go_end; [lens|reflexivity|sapp].
    + eapply go_next with (v' := IV IBreak (i_rv v) (i_start v) 2 (i_slink v) (i_link1 v)); [lens| |].
      { intro rec. unfold istep. hsimp. rewrite eqb_refl, not_last by lens. reflexivity. }
      replace (S n) with (n + 1) by lia. rewrite repeat_app. cbn [repeat]. rewrite <- (app_assoc (repeat SP n)).
      cbn [app]. apply go_spaces; [lens|].
      assert (El : length (((pre ++ [SP]) ++ [SP]) ++ repeat SP n) = length pre + 2 + n)
        by (rewrite !app_length, repeat_length; cbn [length]; lia).
      eapply go_next with (v' := IV IStart (i_rv v ++ B "<br />") (i_start v) (2 + n) (i_slink v) (i_link1 v)).
      { rewrite El. lia. }
      { intro rec. unfold istep. hsimp. rewrite eqb_refl, is_last by (rewrite El; lia). reflexivity. }
      apply go_end; [rewrite app_length, El; cbn [length]; lia|reflexivity|sapp].
  - (* dash *)
    cbn [app length] in *. destruct x as [|c x].
    + inv Hm. cbn [app length] in *. eapply go_next with (v' := emit (B "-") IStart v); [lia| |].
      * intro rec. unfold istep. rewrite St, is_last by lia. reflexivity.
      * apply go_end; [lens|reflexivity|reflexivity].
    + cbn [app length starts] in *. eapply go_marker with (st := IEndash); [exact St|lia|auto 12|].
      eapply go_stay with (v' := emit (B "-") IStart v); [lens| |].
      * intro rec. unfold istep. hsimp. rewrite Hs. reflexivity.
      * change (c :: x ++ post) with ((c :: x) ++ post). fin IH Hn Hw'.
  - (* en dash *)
    change (B "--" ++ x) with ("-"%char :: "-"%char :: x) in *. cbn [app length] in *.
    eapply go_marker with (st := IEndash); [exact St|lia|auto 12|].
    destruct x as [|c x].
    + inv Hm. cbn [app length] in *. eapply go_next with (v' := emit (B "&ndash;") IStart v); [lens| |].
      * intro rec. unfold istep. hsimp. rewrite is_last by lens. reflexivity.
      * apply go_end; [lens|reflexivity|]. hsimp. rewrite app_nil_r. reflexivity.
    + cbn [app length starts] in *. eapply go_next with (v' := goto IEmdash v); [lens| |].
      { intro rec. unfold istep. hsimp. rewrite not_last by lens. reflexivity. }
      eapply go_stay with (v' := emit (B "&ndash;") IStart v); [lens| |].
      * intro rec. unfold istep. hsimp. rewrite Hs. reflexivity.
      * change (c :: x ++ post) with ((c :: x) ++ post). fin IH Hn Hw'.
  - (* em dash *)
    change (B "---" ++ x) with ("-"%char :: "-"%char :: "-"%char :: x) in *. cbn [app length] in *.
    eapply go_marker with (st := IEndash); [exact St|lia|auto 12|].
    eapply go_next with (v' := goto IEmdash v); [lens| |].
    { intro rec. unfold istep. hsimp. rewrite not_last by lens. reflexivity. }
    eapply go_next with (v' := emit (B "&mdash;") IStart v); [lens| |].
    { intro rec. reflexivity. }
    fin IH Hn Hw'.
  - (* emphasis *)
    assert (Hu' : exists u0 u1, u = u0 :: u1 /\ (u0 == d) = false).
    { destruct u as [|u0 u1]; [congruence|]. exists u0, u1. split; [reflexivity|].
      cbn [free_of] in Hf. destruct (u0 == BSL) eqn:E0.
      - apply eqb_true in E0. subst u0. cbv [B list_ascii_of_string In] in Hd.
        destruct Hd as [<-|[<-|[]]]; reflexivity.
      - apply andb_true_iff in Hf. apply negb_true_iff, Hf. }
    destruct (em_state Hd) as (st & st2 & Hst). assert (Md : mark d)
      by (destruct Hst as [(-> & _)|(-> & _)]; [apply mark_ast|apply mark_und]).
    assert (Es' : s = (pre ++ [d]) ++ u ++ d :: x ++ post) by sapp.
    replace ((d :: u ++ d :: x) ++ post) with (d :: u ++ d :: x ++ post) by sapp.
    assert (Hnu : no_nul u) by (rewrite Es' in Hn; exact (no_nul_mid Hn)).
    eapply go_marker with (st := st); [exact St|lens|intuition|].
    assert (Y : yields (u ++ d :: x ++ post) (length u) 0 iv0 w).
    { apply (IH1 [] (d :: x ++ post) (length u) iv0 (u ++ d :: x ++ post)); [discriminate|reflexivity|reflexivity| | |reflexivity|reflexivity].
      - rewrite Es' in Hn. exact (no_nul_end Hn).
      - rewrite Es' in Hw'. exact (wsafe_end Hw'). }
    destruct Hu' as (u0 & u1 & -> & Eu0). cbn [app].
    replace (u1 ++ d :: x ++ post) with ((u1 ++ [d]) ++ x ++ post) by sapp.
    eapply go_rec with (v' := emit (B "<em>" ++ w ++ B "</em>") IStart v); [lens|exact Y| |].
    { intros rec Hrec. rewrite <- (app_assoc u1). cbn [app].
      assert (EM : emph1 rec ((pre ++ [d]) ++ u0 :: u1 ++ d :: x ++ post) len (length (pre ++ [d])) d st2 u0 (goto st v)
               = Ok (length (pre ++ [d]) + 1 + length (u1 ++ [d]), emit (B "<em>" ++ w ++ B "</em>") IStart v)).
      { unfold emph1. rewrite Eu0. rewrite skipn_pre.
        change (u0 :: u1 ++ d :: x ++ post) with ((u0 :: u1) ++ d :: x ++ post).
        rewrite (@find_free_hit d (u0 :: u1) (x ++ post) Md Hnu Hf). cbn [rbind].
        assert (Lb : Nat.leb len (length (pre ++ [d]) + length (u0 :: u1)) = false) by (apply Nat.leb_gt; lens).
        rewrite Lb. rewrite Hrec. cbn [rbind]. do 2 f_equal. lens. }
      destruct Hst as [(-> & -> & ->)|(-> & -> & ->)]; exact EM. }
    fin IH2 Hn Hw'.
  - (* strong *)
    destruct (em_state Hd) as (st & st2 & Hst). assert (Md : mark d)
      by (destruct Hst as [(-> & _)|(-> & _)]; [apply mark_ast|apply mark_und]).
    assert (Es' : s = ((pre ++ [d]) ++ [d]) ++ u ++ d :: d :: x ++ post) by sapp.
    assert (Hnu : no_nul u) by (rewrite Es' in Hn; exact (no_nul_mid Hn)).
    replace ((d :: d :: u ++ d :: d :: x) ++ post) with (d :: d :: u ++ d :: d :: x ++ post) by sapp.
    eapply go_marker with (st := st); [exact St|lens|intuition|].
    eapply go_next with (v' := goto st2 v); [lens| |].
    { intro rec. destruct Hst as [(-> & -> & ->)|(-> & -> & ->)]; reflexivity. }
    assert (Y : yields (u ++ d :: d :: x ++ post) (length u) 0 iv0 w).
    { apply (IH1 [] (d :: d :: x ++ post) (length u) iv0 (u ++ d :: d :: x ++ post));
        [discriminate|reflexivity|reflexivity| | |reflexivity|reflexivity].
      - rewrite Es' in Hn. exact (no_nul_end Hn).
      - rewrite Es' in Hw'. exact (wsafe_end Hw'). }
    assert (Ex : exists c0 r0, u ++ [d; d] = c0 :: r0) by (destruct u; cbn [app]; eauto).
    destruct Ex as (c0 & r0 & Ec).
    assert (Ec' : u ++ d :: d :: x ++ post = c0 :: r0 ++ x ++ post)
      by (change (c0 :: r0 ++ x ++ post) with ((c0 :: r0) ++ x ++ post); rewrite <- Ec, <- app_assoc; reflexivity).
    assert (Lc : length u + 2 = S (length r0)) by (apply (f_equal (@length ascii)) in Ec; lens).
    assert (EM : forall rec, rec (u ++ d :: d :: x ++ post) (length u) = Ok w ->
       emph2 rec (((pre ++ [d]) ++ [d]) ++ u ++ d :: d :: x ++ post) len (length ((pre ++ [d]) ++ [d])) d (goto st2 v)
       = Ok (length ((pre ++ [d]) ++ [d]) + 1 + length r0, emit (B "<strong>" ++ w ++ B "</strong>") IStart v)).
    { intros rec Hrec. unfold emph2.
      rewrite (@find_pair_hit d len Md (S len) u ((pre ++ [d]) ++ [d]) (x ++ post) Hnu Hp ltac:(lens) ltac:(lens)).
      cbn [rbind]. rewrite skipn_pre.
      replace (length ((pre ++ [d]) ++ [d]) + length u - length ((pre ++ [d]) ++ [d])) with (length u) by lia.
      rewrite Hrec. cbn [rbind]. do 2 f_equal. lia. }
    rewrite Ec'. eapply go_rec with (v' := emit (B "<strong>" ++ w ++ B "</strong>") IStart v); [lens|exact Y| |].
    { intros rec Hrec. rewrite <- Ec'.
      destruct Hst as [(-> & -> & ->)|(-> & -> & ->)]; exact (EM rec Hrec). }
    rewrite <- Ec.
    eapply IH2; [exact Htp|reflexivity| |exact Hn|exact Hw'| |]; [|lens|sapp].
    rewrite Es'. sapp.
  - (* code *)
    assert (Hu' : exists u0 u1, u = u0 :: u1 /\ (u0 == "`"%char) = false).
    { destruct u as [|u0 u1]; [congruence|]. exists u0, u1. split; [reflexivity|].
      cbn [free_of] in Hf. destruct (u0 == BSL) eqn:E0.
      - apply eqb_true in E0. subst u0. reflexivity.
      - apply andb_true_iff in Hf. apply negb_true_iff, Hf. }
    apply text_bytes_htmlentities in Ht.
    assert (Es' : s = (pre ++ ["`"%char]) ++ u ++ "`"%char :: x ++ post) by sapp.
    assert (Hnu : no_nul u) by (rewrite Es' in Hn; exact (no_nul_mid Hn)).
    replace (("`"%char :: u ++ "`"%char :: x) ++ post) with ("`"%char :: u ++ "`"%char :: x ++ post) by sapp.
    eapply go_marker with (st := ITick); [exact St|lens|intuition|].
    destruct Hu' as (u0 & u1 & -> & Eu0). cbn [app].
    replace (u1 ++ "`"%char :: x ++ post) with ((u1 ++ ["`"%char]) ++ x ++ post) by sapp.
    eapply go_step with (v' := emit (B "<code>" ++ w ++ B "</code>") IStart v); [lens| |].
    { intro rec. rewrite <- (app_assoc u1). cbn [app]. unfold istep. hsimp. rewrite Eu0, skipn_pre.
      change (u0 :: u1 ++ "`"%char :: x ++ post) with ((u0 :: u1) ++ "`"%char :: x ++ post).
      rewrite (@find_free_hit "`" (u0 :: u1) (x ++ post) mark_tick Hnu Hf). cbn [rbind].
      assert (Lb : Nat.leb len (length (pre ++ ["`"%char]) + length (u0 :: u1)) = false) by (apply Nat.leb_gt; lens).
      rewrite Lb, dup_mid, <- Ht. do 2 f_equal. lens. }
    fin IH Hn Hw'.
  - (* code in double backticks *)
    apply text_bytes_htmlentities in Ht.
    change (B "``" ++ u ++ B "``" ++ x) with ("`"%char :: "`"%char :: u ++ "`"%char :: "`"%char :: x) in *.
    assert (Es' : s = ((pre ++ ["`"%char]) ++ ["`"%char]) ++ u ++ "`"%char :: "`"%char :: x ++ post) by sapp.
    assert (Hnu : no_nul u) by (rewrite Es' in Hn; exact (no_nul_mid Hn)).
    replace (("`"%char :: "`"%char :: u ++ "`"%char :: "`"%char :: x) ++ post)
      with ("`"%char :: "`"%char :: u ++ "`"%char :: "`"%char :: x ++ post) by sapp.
    eapply go_marker with (st := ITick); [exact St|lens|intuition|].
    eapply go_next with (v' := goto ITick2 v); [lens|intro rec; reflexivity|].
    assert (Ex : exists c0 r0, u ++ ["`"%char; "`"%char] = c0 :: r0) by (destruct u; cbn [app]; eauto).
    destruct Ex as (c0 & r0 & Ec).
    assert (Ec' : u ++ "`"%char :: "`"%char :: x ++ post = c0 :: r0 ++ x ++ post)
      by (change (c0 :: r0 ++ x ++ post) with ((c0 :: r0) ++ x ++ post); rewrite <- Ec, <- app_assoc; reflexivity).
    assert (Lc : length u + 2 = S (length r0)) by (apply (f_equal (@length ascii)) in Ec; lens).
    rewrite Ec'. eapply go_step with (v' := emit (B "<code>" ++ w ++ B "</code>") IStart v); [lens| |].
    { intro rec. rewrite <- Ec'. unfold istep. hsimp.
      rewrite (@find_pair_hit "`" len mark_tick (S len) u ((pre ++ ["`"%char]) ++ ["`"%char]) (x ++ post) Hnu Hp
                 ltac:(lens) ltac:(lens)).
      cbn [rbind]. rewrite dup_mid, <- Ht. do 2 f_equal. lia. }
    rewrite <- Ec.
    eapply IH; [exact Htp|reflexivity| |exact Hn|exact Hw'| |]; [|lens|sapp].
    rewrite Es'. sapp.
  - (* a lone marker *)
    cbn [app length] in *.
    assert (Es' : s = (pre ++ [d]) ++ x ++ post) by sapp.
    assert (Hnx : no_nul x) by (rewrite Es' in Hn; exact (no_nul_mid Hn)).
    assert (Hd' : exists st, (d = "*"%char /\ st = IAst) \/ (d = "_"%char /\ st = IUnd) \/ (d = "`"%char /\ st = ITick)).
    { cbv [B list_ascii_of_string In] in Hd. destruct Hd as [<-|[<-|[<-|[]]]]; eauto 6. }
    destruct Hd' as (st & Hst). assert (Md : mark d)
      by (destruct Hst as [(-> & _)|[(-> & _)|(-> & _)]]; split; discriminate).
    assert (Hx' : exists c0 x1, x = c0 :: x1 /\ (c0 == d) = false).
    { destruct x as [|c0 x1]; [congruence|]. exists c0, x1. split; [reflexivity|].
      cbn [free_of] in Hf. destruct (c0 == BSL) eqn:E0.
      - apply eqb_true in E0. subst c0. apply eqb_false. intro K. apply (proj2 Md). auto.
      - apply andb_true_iff in Hf. apply negb_true_iff, Hf. }
    assert (Hx2 : 1 <= length x) by (destruct x; [congruence|cbn; lia]).
    eapply go_marker with (st := st); [exact St|lia|intuition|].
    assert (HF : match str_find (x ++ post) d with
                 | Ok None => True | Ok (Some j) => length x <= j | _ => False end).
    { pose proof (@find_res ((pre ++ [d]) ++ x ++ post) (length (pre ++ [d])) d Md) as FR.
      rewrite skipn_pre in FR.
      destruct (str_find (x ++ post) d) as [[j|]| |] eqn:Ej; auto.
      - rewrite (str_find_go_eq _ Md), <- app_assoc, (find_free Md _ _ (le_n _) Hnx Hf) in Ej.
        exact (find_ge (le_n _) Ej).
      - apply FR; rewrite <- Es'; try assumption. split; [lens|]. exists d. split; [|apply Md].
        rewrite Es', snoc_length. replace (length pre + 1 - 1) with (length pre) by lia.
        rewrite <- app_assoc. apply at_pre. }
    destruct Hx' as (c0 & x1 & -> & Ec0). cbn [app].
    eapply go_stay with (v' := emit [d] IStart v); [lens| |].
    { intro rec. unfold istep. 
      assert (EM : forall (A : Type) (k : nat -> res A) (z : res A),
        (forall j, length (c0 :: x1) <= j -> k j = z) ->
        (do r <- str_find (skipn (length (pre ++ [d])) ((pre ++ [d]) ++ c0 :: x1 ++ post)) d ;
         match r with None => z | Some i => k i end) = z).
      { intros A k z K. rewrite skipn_pre. change (c0 :: x1 ++ post) with ((c0 :: x1) ++ post).
        destruct (str_find ((c0 :: x1) ++ post) d) as [[j|]| |]; cbn [rbind]; try contradiction; [|reflexivity].
        apply K. exact HF. }
      assert (Lj : forall j, length (c0 :: x1) <= j -> Nat.leb len (length (pre ++ [d]) + j) = true)
        by (intros j Hj; apply Nat.leb_le; lens).
      destruct Hst as [(-> & ->)|[(-> & ->)|(-> & ->)]]; hsimp; unfold emph1; rewrite Ec0;
        apply EM; intros j Hj; rewrite (Lj j Hj); reflexivity. }
    change (c0 :: x1 ++ post) with ((c0 :: x1) ++ post). fin IH Hn Hw'.
  - (* link *)
    change (B "[") with ["["%char] in *. change (B "]") with ["]"%char] in *. change (B "(") with ["("%char] in *. change (B ")") with [")"%char] in *.


    assert (Es' : s = (pre ++ ["["%char]) ++ (c :: tt) ++ ["]"%char] ++ bl ++ ["("%char] ++ u ++ [")"%char] ++ x ++ post) by sapp.
    assert (Hnt : no_nul (c :: tt)) by (rewrite Es' in Hn; exact (no_nul_mid Hn)).
    assert (Yt : yields (c :: tt) (length (c :: tt)) 0 iv0 w).
    { pose proof (IH1 [] [] (length (c :: tt)) iv0 (c :: tt) w) as K. unfold go in K.
      rewrite app_nil_r in K. cbn [app length] in K. apply K; auto.
      apply wsafe_cons. exact (@balanced_even _ 0 tt (le_n _) Hb). }
    replace ((["["%char] ++ (c :: tt) ++ ["]"%char] ++ bl ++ ["("%char] ++ u ++ [")"%char] ++ x) ++ post)
      with ("["%char :: c :: tt ++ "]"%char :: bl ++ "("%char :: u ++ ")"%char :: x ++ post) by sapp.
    assert (Hl : len = length pre + 1 + 1 + length tt + 1 + length bl + 1 + length u + 1 + length x) by lens.
    eapply go_marker with (st := ILinkStart); [exact St|lia|intuition|].
    eapply go_next with (v' := IV ILinkContent (i_rv v) (i_start v) (1 + 0) (length pre + 1) (i_link1 v)); [lens| |].
    { intro rec. unfold istep. hsimp. apply eqb_false in Hc. rewrite Hc, snoc_length. reflexivity. }
    eapply go_balanced; [apply le_n|exact Hb|lens|].
    eapply go_next with (v' := IV ILinkUrlStart (i_rv v) (i_start v) 0 (length pre + 1) (Some (c :: tt))); [lens| |].
    { intro rec. unfold istep. hsimp. change ("]"%char == BSL) with false. change ("]"%char == "["%char) with false.
      change ("]"%char == "]"%char) with true. cbn [Nat.eqb]. do 3 f_equal. f_equal.
      transitivity (dup ((pre ++ ["["%char]) ++ (c :: tt) ++ "]"%char :: bl ++ "("%char :: u ++ ")"%char :: x ++ post)
        (length (pre ++ ["["%char])) (length (pre ++ ["["%char]) + length (c :: tt))); [|apply dup_mid].
      f_equal; [sapp|lens|lens]. }
    eapply go_blank; [auto|exact Hw|lens|].
    eapply go_next with (v' := IV ILinkUrl (i_rv v) (length pre + 1 + 1 + length tt + 1 + length bl + 1) 0 (length pre + 1) (Some (c :: tt))); [lens| |].
    { intro rec. unfold istep. hsimp. change (is_sp "("%char || is_nl "("%char) with false. change ("("%char == "("%char) with true.
      cbn match. do 3 f_equal. lens. }
    eapply go_scan; [left; split; reflexivity|apply le_n|exact Hf|lens|].
    apply (@go_rec _ ")"%char (x ++ post) len _ []
       (IV IStart (i_rv v ++ B "<a href=""" ++ unbackslash u ++ B """>" ++ w ++ B "</a>")
                  (length pre + 1 + 1 + length tt + 1 + length bl + 1) 0 (length pre + 1) None) T (c :: tt) (length (c :: tt)) w);
      [lens|exact Yt| |].
    { intros rec Hrec. unfold istep. hsimp. change (")"%char == BSL) with false. change (")"%char == ")"%char) with true.
      cbn match. rewrite Hrec. cbn [rbind app length]. do 2 f_equal; [lens|]. f_equal. f_equal. f_equal. f_equal.
      rewrite <- (unbackslash_eq (le_n _)). f_equal.
      transitivity (dup (((((((pre ++ ["["%char]) ++ [c]) ++ tt) ++ ["]"%char]) ++ bl) ++ ["("%char]) ++ u ++ ")"%char :: x ++ post)
        (length ((((((pre ++ ["["%char]) ++ [c]) ++ tt) ++ ["]"%char]) ++ bl) ++ ["("%char]))
        (length ((((((pre ++ ["["%char]) ++ [c]) ++ tt) ++ ["]"%char]) ++ bl) ++ ["("%char]) + length u)); [|apply dup_mid].
      f_equal; [sapp|lens|lens]. }
    eapply IH2; [exact Htp|reflexivity| |exact Hn|exact Hw'| |]; [|lens|sapp].
    rewrite Es'. sapp.
  - (* automatic link *)
    change (B "[[" ++ u ++ B "]]" ++ x) with ("["%char :: "["%char :: u ++ "]"%char :: "]"%char :: x) in *.
    assert (Es' : s = ((pre ++ ["["%char]) ++ ["["%char]) ++ u ++ "]"%char :: "]"%char :: x ++ post) by sapp.
    assert (Hnu : no_nul u) by (rewrite Es' in Hn; exact (no_nul_mid Hn)).
    replace (("["%char :: "["%char :: u ++ "]"%char :: "]"%char :: x) ++ post)
      with ("["%char :: "["%char :: u ++ "]"%char :: "]"%char :: x ++ post) by sapp.
    eapply go_marker with (st := ILinkStart); [exact St|lens|intuition|].
    eapply go_next with (v' := goto ILinkAuto v); [lens|intro rec; reflexivity|].
    assert (Ex : exists c0 r0, u ++ ["]"%char; "]"%char] = c0 :: r0) by (destruct u; cbn [app]; eauto).
    destruct Ex as (c0 & r0 & Ec).
    assert (Ec' : u ++ "]"%char :: "]"%char :: x ++ post = c0 :: r0 ++ x ++ post)
      by (change (c0 :: r0 ++ x ++ post) with ((c0 :: r0) ++ x ++ post); rewrite <- Ec, <- app_assoc; reflexivity).
    assert (Lc : length u + 2 = S (length r0)) by (apply (f_equal (@length ascii)) in Ec; lens).
    rewrite Ec'.
    eapply go_step with (v' := emit (B "<a href=""" ++ unbackslash u ++ B """>" ++ unbackslash u ++ B "</a>") IStart v); [lens| |].
    { intro rec. rewrite <- Ec'. unfold istep. hsimp.
      rewrite (@find_pair_hit "]" len mark_brk (S len) u ((pre ++ ["["%char]) ++ ["["%char]) (x ++ post) Hnu Hp
                 ltac:(lens) ltac:(lens)).
      cbn [rbind]. rewrite dup_mid, (unbackslash_eq (le_n _)). do 2 f_equal. lia. }
    rewrite <- Ec.
    eapply IH; [exact Htp|reflexivity| |exact Hn|exact Hw'| |]; [|lens|sapp].
    rewrite Es'. sapp.
  - (* image *)
   
    change (B "![") with ["!"%char; "["%char] in *. change (B "]") with ["]"%char] in *. change (B "(") with ["("%char] in *. change (B ")") with [")"%char] in *.
    assert (Es' : s = ((pre ++ ["!"%char]) ++ ["["%char]) ++ a ++ ["]"%char] ++ bl ++ ["("%char] ++ u ++ [")"%char] ++ x ++ post) by sapp.
    replace ((["!"%char; "["%char] ++ a ++ ["]"%char] ++ bl ++ ["("%char] ++ u ++ [")"%char] ++ x) ++ post)
      with ("!"%char :: "["%char :: a ++ "]"%char :: bl ++ "("%char :: u ++ ")"%char :: x ++ post) by sapp.
    assert (Hl : len = length pre + 1 + 1 + length a + 1 + length bl + 1 + length u + 1 + length x) by lens.
    eapply go_marker with (st := IImgStart); [exact St|lia|intuition|].
    eapply go_next with (v' := IV IImgAlt (i_rv v) (i_start v) (i_count v) (length pre + 1 + 1) (i_link1 v)); [lens| |].
    { intro rec. unfold istep. hsimp. change ("["%char == "["%char) with true. cbn match. rewrite snoc_length. reflexivity. }
    eapply go_scan; [right; left; split; reflexivity|apply le_n|exact Ha|lens|].
    eapply go_next with (v' := IV IImgUrlStart (i_rv v) (i_start v) (i_count v) (length pre + 1 + 1) (Some a)); [lens| |].
    { intro rec. unfold istep. hsimp. change ("]"%char == BSL) with false. change ("]"%char == "]"%char) with true.
      cbn match. do 3 f_equal. f_equal.
      transitivity (dup (((pre ++ ["!"%char]) ++ ["["%char]) ++ a ++ "]"%char :: bl ++ "("%char :: u ++ ")"%char :: x ++ post)
        (length ((pre ++ ["!"%char]) ++ ["["%char])) (length ((pre ++ ["!"%char]) ++ ["["%char]) + length a)); [|apply dup_mid].
      f_equal; [sapp|lens|lens]. }
    eapply go_blank; [auto|exact Hw|lens|].
    eapply go_next with (v' := IV IImgUrl (i_rv v) (length pre + 1 + 1 + length a + 1 + length bl + 1) (i_count v) (length pre + 1 + 1) (Some a)); [lens| |].
    { intro rec. unfold istep. hsimp. change (is_sp "("%char || is_nl "("%char) with false. change ("("%char == "("%char) with true.
      cbn match. do 3 f_equal. lens. }
    eapply go_scan; [right; right; split; reflexivity|apply le_n|exact Hf|lens|].
    eapply go_next with (v' := IV IStart (i_rv v ++ B "<img src=""" ++ unbackslash u ++ B """ alt=""" ++ unbackslash a ++ B """>")
                  (length pre + 1 + 1 + length a + 1 + length bl + 1) (i_count v) (length pre + 1 + 1) None); [lens| |].
    { intro rec. unfold istep. hsimp. change (")"%char == BSL) with false. change (")"%char == ")"%char) with true.
      cbn match. rewrite <- (unbackslash_eq (le_n (length a))). do 3 f_equal. f_equal. f_equal. f_equal.
      rewrite <- (unbackslash_eq (le_n _)). f_equal.
      transitivity (dup ((((((pre ++ ["!"%char]) ++ ["["%char]) ++ a) ++ ["]"%char]) ++ bl) ++ ["("%char] ++ u ++ ")"%char :: x ++ post)
        (length (((((pre ++ ["!"%char]) ++ ["["%char]) ++ a) ++ ["]"%char]) ++ bl ++ ["("%char]))
        (length (((((pre ++ ["!"%char]) ++ ["["%char]) ++ a) ++ ["]"%char]) ++ bl ++ ["("%char]) + length u)); [|].
      - f_equal; [sapp|lens|lens].
      - transitivity (dup ((((((pre ++ ["!"%char]) ++ ["["%char]) ++ a) ++ ["]"%char]) ++ bl ++ ["("%char]) ++ u ++ ")"%char :: x ++ post)
        (length (((((pre ++ ["!"%char]) ++ ["["%char]) ++ a) ++ ["]"%char]) ++ bl ++ ["("%char]))
        (length (((((pre ++ ["!"%char]) ++ ["["%char]) ++ a) ++ ["]"%char]) ++ bl ++ ["("%char]) + length u)); [|apply dup_mid].
        f_equal. sapp. }
    eapply IH; [exact Htp|reflexivity| |exact Hn|exact Hw'| |]; [|lens|sapp].
    rewrite Es'. sapp.
  - (* two marks that are not closed *)
    cbn [app length] in *.
    assert (Es' : s = ((pre ++ [d]) ++ [d]) ++ x ++ post) by sapp.
    assert (Hst : exists st st2, (d = "*"%char /\ k = "*"%char /\ st = IAst /\ st2 = IAst2) \/ (d = "_"%char /\ k = "_"%char /\ st = IUnd /\ st2 = IUnd2) \/
                 (d = "`"%char /\ k = "`"%char /\ st = ITick /\ st2 = ITick2) \/ (d = "["%char /\ k = "]"%char /\ st = ILinkStart /\ st2 = ILinkAuto)).
    { cbn [In] in Hd. destruct Hd as [E|[E|[E|[E|[]]]]]; injection E as <- <-; eauto 12. }
    destruct Hst as (st & st2 & Hst).
    assert (Md : mark k) by (destruct Hst as [(_ & -> & _)|[(_ & -> & _)|[(_ & -> & _)|(_ & -> & _)]]]; split; discriminate).
    assert (Nd : d <> BSL /\ d <> NUL) by (destruct Hst as [(-> & _)|[(-> & _)|[(-> & _)|(-> & _)]]]; split; discriminate).
    assert (Hx2 : 1 <= length x) by (destruct x; [congruence|cbn; lia]).
    eapply go_marker with (st := st); [exact St|lia|intuition|].
    eapply go_next with (v' := goto st2 v); [lens| |].
    { intro rec. destruct Hst as [(-> & _ & -> & ->)|[(-> & _ & -> & ->)|[(-> & _ & -> & ->)|(-> & _ & -> & ->)]]]; reflexivity. }
    assert (FP : find_pair (S len) (((pre ++ [d]) ++ [d]) ++ x ++ post) len (length ((pre ++ [d]) ++ [d])) k = Ok None).
    { apply find_pair_miss; [exact Md|rewrite <- Es'; exact Hn|rewrite <- Es'; exact Hw'| |exact Hp|lens|lens].
      split; [lens|]. exists d. split; [|apply Nd]. rewrite snoc_length. replace (length (pre ++ [d]) + 1 - 1) with (length (pre ++ [d])) by lia.
      rewrite <- app_assoc. apply at_pre. }
    destruct x as [|c0 x1]; [congruence|]. cbn [app].
    eapply go_stay with (v' := emit [d; d] IStart v); [lens| |].
    { intro rec. unfold istep.
      destruct Hst as [(-> & -> & -> & ->)|[(-> & -> & -> & ->)|[(-> & -> & -> & ->)|(-> & -> & -> & ->)]]]; hsimp; unfold emph2;
        cbn [app] in FP; rewrite FP; reflexivity. }
    change (c0 :: x1 ++ post) with ((c0 :: x1) ++ post). fin IH Hn Hw'.
  - (* brackets that are no link *)
    assert (Hl : len = length pre + 1 + 1 + length tt + 1 + length bl + 1 + length x) by lens.
    replace (("["%char :: c :: tt ++ "]"%char :: bl ++ z :: x) ++ post)
      with ("["%char :: c :: tt ++ "]"%char :: bl ++ z :: x ++ post) by sapp.
    eapply go_marker with (st := ILinkStart); [exact St|lia|intuition|].
    eapply go_next with (v' := IV ILinkContent (i_rv v) (i_start v) (1 + 0) (length pre + 1) (i_link1 v)); [lens| |].
    { intro rec. unfold istep. hsimp. apply eqb_false in Hc. rewrite Hc, snoc_length. reflexivity. }
    eapply go_balanced; [apply le_n|exact Hb|lens|].
    eapply go_next with (v' := IV ILinkUrlStart (i_rv v) (i_start v) 0 (length pre + 1) _); [lens| |].
    { intro rec. unfold istep. hsimp. change ("]"%char == BSL) with false. change ("]"%char == "["%char) with false.
      change ("]"%char == "]"%char) with true. cbn [Nat.eqb]. reflexivity. }
    eapply go_blank; [auto|exact Hw|lens|].
    assert (Hz1 : is_sp z || is_nl z = false).
    { unfold is_sp, is_nl. rewrite !orb_false_iff. repeat split; apply eqb_false; intros ->; apply Hz; cbn; auto 8. }
    assert (Hz2 : (z == "("%char) = false) by (apply eqb_false; intros ->; apply Hz; cbn; auto 8).
    unfold go. eapply yields_step; [|apply at_pre| |].
    { lens. }
    { intro rec. unfold istep. hsimp. rewrite Hz1, Hz2. reflexivity. }
    replace ((((((pre ++ ["["%char]) ++ [c]) ++ tt) ++ ["]"%char]) ++ bl) ++ z :: x ++ post)
      with ((pre ++ ["["%char]) ++ (c :: tt ++ "]"%char :: bl ++ z :: x) ++ post) by sapp.
    replace (length pre + 1) with (length (pre ++ ["["%char])) by lens.
    eapply IH; [exact Htp|reflexivity| |exact Hn|exact Hw'| |]; [|lens|sapp]. sapp.
  - (* brackets that are no image *)
    assert (Hl : len = length pre + 1 + 1 + length a + 1 + length bl + 1 + length x) by lens.
    replace (("!"%char :: "["%char :: a ++ "]"%char :: bl ++ z :: x) ++ post)
      with ("!"%char :: "["%char :: a ++ "]"%char :: bl ++ z :: x ++ post) by sapp.
    eapply go_marker with (st := IImgStart); [exact St|lia|intuition|].
    eapply go_next with (v' := IV IImgAlt (i_rv v) (i_start v) (i_count v) (length pre + 1 + 1) (i_link1 v)); [lens| |].
    { intro rec. unfold istep. hsimp. change ("["%char == "["%char) with true. cbn match. rewrite snoc_length. reflexivity. }
    eapply go_scan; [right; left; split; reflexivity|apply le_n|exact Ha|lens|].
    eapply go_next with (v' := IV IImgUrlStart (i_rv v) (i_start v) (i_count v) (length pre + 1 + 1) _); [lens| |].
    { intro rec. unfold istep. hsimp. change ("]"%char == BSL) with false. change ("]"%char == "]"%char) with true. reflexivity. }
    eapply go_blank; [auto|exact Hw|lens|].
    assert (Hz1 : is_sp z || is_nl z = false).
    { unfold is_sp, is_nl. rewrite !orb_false_iff. repeat split; apply eqb_false; intros ->; apply Hz; cbn; auto 8. }
    assert (Hz2 : (z == "("%char) = false) by (apply eqb_false; intros ->; apply Hz; cbn; auto 8).
    unfold go. eapply yields_step; [|apply at_pre| |].
    { lens. }
    { intro rec. unfold istep. hsimp. rewrite Hz1, Hz2. reflexivity. }
    replace ((((((pre ++ ["!"%char]) ++ ["["%char]) ++ a) ++ ["]"%char]) ++ bl) ++ z :: x ++ post)
      with (((pre ++ ["!"%char]) ++ ["["%char]) ++ (a ++ "]"%char :: bl ++ z :: x) ++ post) by sapp.
    replace (length pre + 1 + 1) with (length ((pre ++ ["!"%char]) ++ ["["%char])) by lens.
    eapply IH; [exact Htp|reflexivity| |exact Hn|exact Hw'| |]; [|lens|sapp]. sapp.
  - (* a link that is cut off *)
    rewrite (Htp Et) in *. rewrite app_nil_r in *. cbn [app] in *.
    assert (Es' : s = (pre ++ ["["%char]) ++ x) by sapp.
    assert (Hnx : no_nul x) by (rewrite Es' in Hn; exact (no_nul_end Hn)).
    assert (Hwx : wsafe x) by (rewrite Es' in Hw'; exact (wsafe_end Hw')).
    assert (Y : yields x (length x) 0 iv0 y).
    { pose proof (IH [] [] (length x) iv0 x y) as K. unfold go in K. rewrite app_nil_r in K. cbn [app length] in K. apply K; auto. }
    assert (Sk : forall pre', pre' = pre ++ ["["%char] -> skipn (length pre + 1) (pre' ++ x) = x)
      by (intros pre' ->; rewrite <- snoc_length with (c := "["%char); apply skipn_pre).
    assert (Fin : forall st start k l1 cur s', s' = (pre ++ ["["%char]) ++ x -> len <= cur -> In st [ILinkContent; ILinkUrlStart; ILinkUrl] ->
      yields s' len cur (IV st (i_rv v) start k (length pre + 1) l1) T).
    { intros st start k l1 cur s' -> Lc Hst. eapply yields_link; [exact Lc|exact Hst|cbn [i_slink]; rewrite (Sk _ eq_refl); exact Y|].
      cbn [i_rv]. rewrite (unbackslash_eq (le_n _)). exact HT. }
    destruct Hx as [c tt Hc Hu|c tt bl Hc Hb Hw|c tt bl u Hc Hb Hw Hf].
    + eapply go_marker with (st := ILinkStart); [exact St|lens|intuition|].
      eapply go_next with (v' := IV ILinkContent (i_rv v) (i_start v) (1 + 0) (length pre + 1) (i_link1 v)); [lens| |].
      { intro rec. unfold istep. hsimp. apply eqb_false in Hc. rewrite Hc, snoc_length. reflexivity. }
      eapply go_unclosed; [apply le_n|exact Hu|lens|]. intros cur k Lc. apply Fin; [sapp|exact Lc|left; reflexivity].
    + eapply go_marker with (st := ILinkStart); [exact St|lens|intuition|].
      eapply go_next with (v' := IV ILinkContent (i_rv v) (i_start v) (1 + 0) (length pre + 1) (i_link1 v)); [lens| |].
      { intro rec. unfold istep. hsimp. apply eqb_false in Hc. rewrite Hc, snoc_length. reflexivity. }
      eapply go_balanced; [apply le_n|exact Hb|lens|].
      eapply go_next with (v' := IV ILinkUrlStart (i_rv v) (i_start v) 0 (length pre + 1) _); [lens| |].
      { intro rec. unfold istep. hsimp. change ("]"%char == BSL) with false. change ("]"%char == "["%char) with false.
        change ("]"%char == "]"%char) with true. cbn [Nat.eqb]. reflexivity. }
      apply go_blank_end; [auto|exact Hw|lens|]. intros cur Lc. apply Fin; [sapp|exact Lc|right; left; reflexivity].
    + eapply go_marker with (st := ILinkStart); [exact St|lens|intuition|].
      eapply go_next with (v' := IV ILinkContent (i_rv v) (i_start v) (1 + 0) (length pre + 1) (i_link1 v)); [lens| |].
      { intro rec. unfold istep. hsimp. apply eqb_false in Hc. rewrite Hc, snoc_length. reflexivity. }
      eapply go_balanced; [apply le_n|exact Hb|lens|].
      eapply go_next with (v' := IV ILinkUrlStart (i_rv v) (i_start v) 0 (length pre + 1) _); [lens| |].
      { intro rec. unfold istep. hsimp. change ("]"%char == BSL) with false. change ("]"%char == "["%char) with false.
        change ("]"%char == "]"%char) with true. cbn [Nat.eqb]. reflexivity. }
      eapply go_blank; [auto|exact Hw|lens|].
      eapply go_next with (v' := IV ILinkUrl (i_rv v) _ 0 (length pre + 1) _); [lens| |].
      { intro rec. unfold istep. hsimp. change (is_sp "("%char || is_nl "("%char) with false. change ("("%char == "("%char) with true. reflexivity. }
      eapply go_without; [left; split; reflexivity|apply le_n|exact Hf|lens|]. intros cur Lc. apply Fin; [sapp|exact Lc|right; right; left; reflexivity].
  - (* an image that is cut off *)
    rewrite (Htp Et) in *. rewrite app_nil_r in *. cbn [app] in *.
    assert (Es' : s = ((pre ++ ["!"%char]) ++ ["["%char]) ++ x) by sapp.
    assert (Hnx : no_nul x) by (rewrite Es' in Hn; exact (no_nul_end Hn)).
    assert (Hwx : wsafe x) by (rewrite Es' in Hw'; exact (wsafe_end Hw')).
    assert (Y : yields x (length x) 0 iv0 y).
    { pose proof (IH [] [] (length x) iv0 x y) as K. unfold go in K. rewrite app_nil_r in K. cbn [app length] in K. apply K; auto. }
    assert (Sk : skipn (length pre + 1 + 1) (((pre ++ ["!"%char]) ++ ["["%char]) ++ x) = x)
      by (replace (length pre + 1 + 1) with (length ((pre ++ ["!"%char]) ++ ["["%char])) by lens; apply skipn_pre).
    assert (Fin : forall st start k l1 cur s', s' = ((pre ++ ["!"%char]) ++ ["["%char]) ++ x -> len <= cur -> In st [IImgAlt; IImgUrlStart; IImgUrl] ->
      yields s' len cur (IV st (i_rv v) start k (length pre + 1 + 1) l1) T).
    { intros st start k l1 cur s' -> Lc Hst. eapply yields_image; [exact Lc|exact Hst|cbn [i_slink]; rewrite Sk; exact Y|].
      cbn [i_rv]. rewrite (unbackslash_eq (le_n _)). exact HT. }
    eapply go_marker with (st := IImgStart); [exact St|lens|intuition|].
    eapply go_next with (v' := IV IImgAlt (i_rv v) (i_start v) (i_count v) (length pre + 1 + 1) (i_link1 v)); [lens| |].
    { intro rec. unfold istep. hsimp. change ("["%char == "["%char) with true. cbn match. rewrite snoc_length. reflexivity. }
    destruct Hx as [a Ha|a bl Ha Hw|a bl u Ha Hw Hf].
    + eapply go_without; [right; left; split; reflexivity|apply le_n|exact Ha|lens|]. intros cur Lc. apply Fin; [sapp|exact Lc|left; reflexivity].
    + eapply go_scan; [right; left; split; reflexivity|apply le_n|exact Ha|lens|].
      eapply go_next with (v' := IV IImgUrlStart (i_rv v) (i_start v) (i_count v) (length pre + 1 + 1) _); [lens| |].
      { intro rec. unfold istep. hsimp. change ("]"%char == BSL) with false. change ("]"%char == "]"%char) with true. reflexivity. }
      apply go_blank_end; [auto|exact Hw|lens|]. intros cur Lc. apply Fin; [sapp|exact Lc|right; left; reflexivity].
    + eapply go_scan; [right; left; split; reflexivity|apply le_n|exact Ha|lens|].
      eapply go_next with (v' := IV IImgUrlStart (i_rv v) (i_start v) (i_count v) (length pre + 1 + 1) _); [lens| |].
      { intro rec. unfold istep. hsimp. change ("]"%char == BSL) with false. change ("]"%char == "]"%char) with true. reflexivity. }
      eapply go_blank; [auto|exact Hw|lens|].
      eapply go_next with (v' := IV IImgUrl (i_rv v) _ (i_count v) (length pre + 1 + 1) _); [lens| |].
      { intro rec. unfold istep. hsimp. change (is_sp "("%char || is_nl "("%char) with false. change ("("%char == "("%char) with true. reflexivity. }
      eapply go_without; [right; right; split; reflexivity|apply le_n|exact Hf|lens|]. intros cur Lc. apply Fin; [sapp|exact Lc|right; right; left; reflexivity].
Qed.

Lemma means_inline x y : no_nul x -> wsafe x -> means x y -> inline x = Ok y.
Proof.
  intros Hn Hw Hm. apply (yields_inline Hn).
  pose proof (@means_go true x y Hm [] [] (length x) iv0 x y) as K. unfold go in K.
  rewrite app_nil_r in K. cbn [app length] in K. apply K; auto.
Qed.
