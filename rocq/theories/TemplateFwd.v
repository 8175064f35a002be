(* Every well-structured document is accepted, with the document's nodes. *)
From Verif Require Import Base Utils Template TemplateAbs TemplateSpec TemplateDoc.

(* a phase that collects bytes *)
Lemma run_collect (ph : bytes -> phase) (ok : ascii -> bool) k :
  (forall c acc b, ok c = true -> a_step k (ph acc) c b = ago k (ph (acc ++ [c]))) ->
  forall x acc q, forallb ok x = true -> a_run k (ph acc) (x ++ q) = a_run k (ph (acc ++ x)) q.
Proof.
  intros Hs. induction x as [|c x IH]; intros acc q H; [rewrite app_nil_r; reflexivity|].
  cbn [forallb] in H. apply andb_true_iff in H. destruct H as [Hc Hx].
  cbn [app a_run]. rewrite Hs by assumption. cbn. rewrite IH by assumption. rewrite <- app_assoc. reflexivity.
Qed.

(* a phase that skips bytes *)
Lemma run_skip (p : phase) (ok : ascii -> bool) k :
  (forall c b, ok c = true -> a_step k p c b = ago k p) ->
  forall x q, forallb ok x = true -> a_run k p (x ++ q) = a_run k p q.
Proof.
  intros Hs. induction x as [|c x IH]; intros q H; [reflexivity|].
  cbn [forallb] in H. apply andb_true_iff in H. destruct H as [Hc Hx].
  cbn [app a_run]. rewrite Hs by assumption. cbn. auto.
Qed.

Lemma space_not_lower c : isspace c = true -> is_lower c = false.
Proof.
  pose proof (@forall_bytes (fun c => implb (isspace c) (negb (is_lower c))) eq_refl c) as H; cbv beta in H.
  destruct (isspace c), (is_lower c); try discriminate; auto. Qed.
Lemma space_not_var c : isspace c = true -> var_char c = false.
Proof.
  pose proof (@forall_bytes (fun c => implb (isspace c) (negb (var_char c))) eq_refl c) as H; cbv beta in H.
  destruct (isspace c), (var_char c); try discriminate; auto. Qed.
Lemma space_not_dash c : isspace c = true -> (c == "-"%char) = false.
Proof.
  pose proof (@forall_bytes (fun c => implb (isspace c) (negb (c == "-"%char))) eq_refl c) as H; cbv beta in H.
  destruct (isspace c), (c == "-"%char); try discriminate; auto. Qed.
Lemma space_not_under c : isspace c = true -> (c == "_"%char) = false.
Proof.
  pose proof (@forall_bytes (fun c => implb (isspace c) (negb (c == "_"%char))) eq_refl c) as H; cbv beta in H.
  destruct (isspace c), (c == "_"%char); try discriminate; auto. Qed.
Lemma lower_not_space c : is_lower c = true -> isspace c = false.
Proof.
  pose proof (@forall_bytes (fun c => implb (is_lower c) (negb (isspace c))) eq_refl c) as H; cbv beta in H.
  destruct (is_lower c), (isspace c); try discriminate; auto. Qed.
Lemma lower_not_dash c : is_lower c = true -> (c == "-"%char) = false.
Proof.
  pose proof (@forall_bytes (fun c => implb (is_lower c) (negb (c == "-"%char))) eq_refl c) as H; cbv beta in H.
  destruct (is_lower c), (c == "-"%char); try discriminate; auto. Qed.
Lemma upper_not_space c : is_upper c = true -> isspace c = false.
Proof.
  pose proof (@forall_bytes (fun c => implb (is_upper c) (negb (isspace c))) eq_refl c) as H; cbv beta in H.
  destruct (is_upper c), (isspace c); try discriminate; auto. Qed.

Lemma blanks1_inv s : blanks1 s -> exists c r, s = c :: r /\ isspace c = true /\ blanks r.
Proof.
  intros [H1 H2]. destruct s as [|c r]; [congruence|]. unfold blanks in *. cbn in H1.
  apply andb_true_iff in H1. exists c, r. tauto.
Qed.

(* text *)
Lemma run_text k q : q <> [] -> forall n t u, length t <= n -> text_ok t = true ->
  a_run k (PText u) (t ++ q) = a_run k (PText (u ++ t)) q.
Proof.
  intros Hq. assert (Hnl : forall t, nilb (t ++ q) = false) by (intro t; destruct t, q; try reflexivity; congruence).
  induction n as [|n IH]; intros t u Hn Ht.
  - destruct t; [|cbn in Hn; lia]. rewrite app_nil_r. reflexivity.
  - destruct t as [|c t]; [rewrite app_nil_r; reflexivity|]. cbn [text_ok] in Ht. apply andb_true_iff in Ht.
    destruct Ht as [H1 H2]. cbn [app a_run a_step]. rewrite Hnl. destruct (c == "{"%char) eqn:E.
    + apply eqb_true in E. subst c. destruct t as [|d t]; [discriminate|]. cbn [app ago a_run a_step].
      rewrite orb_comm. apply negb_true_iff in H1. rewrite H1. unfold ago.
      cbn [text_ok] in H2. apply andb_true_iff in H2.
      rewrite IH; [|cbn in Hn; lia|tauto]. rewrite <- app_assoc. reflexivity.
    + unfold ago. rewrite IH; [|cbn in Hn; lia|assumption]. rewrite <- app_assoc. reflexivity.
Qed.

(* entering a statement *)
Definition stmt_start (b : bytes) : Prop :=
  match b with c :: _ => (isspace c || is_lower c) = true | [] => False end.

Lemma run_clean k ld b q : stmt_start b ->
  a_run k PClean (dash ld ++ b ++ q) =
  a_run (if ld then k_set_ast k (rstrip_last (k_ast k)) else k) PStart (b ++ q).
Proof.
  intro Hb. destruct ld; [reflexivity|]. cbn [dash app]. destruct b as [|c b]; [destruct Hb|].
  cbn [stmt_start app a_run a_step] in *.
  replace (c == "-"%char) with false; [reflexivity|]. symmetry.
  apply orb_true_iff in Hb. destruct Hb; [apply space_not_dash|apply lower_not_dash]; assumption.
Qed.

Lemma run_start k w kw q : blanks w -> forallb is_lower kw = true -> kw <> [] ->
  a_run k PStart (w ++ kw ++ q) = a_run k (PKw kw) q.
Proof.
  intros Hw Hk Hne.
  rewrite (@run_skip PStart isspace k); [|intros c b H; cbn [a_step]; unfold a_block_start; rewrite H; reflexivity|exact Hw].
  destruct kw as [|c kw]; [congruence|]. cbn [forallb] in Hk. apply andb_true_iff in Hk. destruct Hk as [Hc Hk].
  cbn [app a_run a_step]. unfold a_block_start. rewrite (lower_not_space Hc), Hc. unfold ago.
  rewrite (@run_collect PKw is_lower k); [reflexivity| |exact Hk].
  intros d acc b Hd. cbn [a_step]. rewrite Hd. reflexivity.
Qed.

Lemma run_name_skip k p s q : (forall c b, isspace c = true -> a_step k p c b = ago k p) -> blanks s ->
  a_run k p (s ++ q) = a_run k p q.
Proof. intros H Hs. apply (@run_skip p isspace k); assumption. Qed.

Lemma keyword_lower ty : forallb is_lower (keyword ty) = true.
Proof. destruct ty; reflexivity. Qed.

Lemma keyword_ne ty : ty <> TVariable -> ty <> TContent -> keyword ty <> [].
Proof. destruct ty; intros; try congruence; vm_compute; congruence. Qed.

Lemma names_block v : In v block_names -> block_name v = true /\ v <> [] /\
  (exists c r, v = c :: r /\ is_lower c = true /\ forallb (fun c => is_lower c || (c == "_"%char)) r = true).
Proof.
  intro H. simpl in H.
  repeat (destruct H as [H|H]; [subst v; split; [reflexivity|]; split; [discriminate|]; do 2 eexists; split; [reflexivity|]; split; reflexivity|]).
  destruct H.
Qed.

(* the end of a statement *)
Lemma run_end k ty d0 o d1 rd q :
  a_run k (PEndClean ty d0 o d1) (dash rd ++ "%"%char :: q) =
  a_run (if rd then k_set_lstrip k true else k) (PClose ty d0 o d1) q.
Proof. destruct rd; reflexivity. Qed.

Definition kstep (k : acore) (ty : ntype) : acore :=
  match ty with
  | TIf | TIfdef | TIfndef => k_set_ifs k (k_ifs k + 1) false
  | TElse => k_set_ifs k (k_ifs k) true
  | TEndif => k_set_ifs k (k_ifs k - 1) false
  | TForeach => k_set_fe k true
  | TEndforeach => k_set_fe k false
  | TBlock => k_set_block (k_enter k) true
  | TEndblock => k_set_block k false
  | _ => k
  end.

Lemma kstep_core k s ty s' : core_st k s -> s_step s ty = Some s' -> core_st (kstep k ty) s'.
Proof.
  intros (C1 & C2 & C3 & C4) H. unfold core_st.
  destruct ty; cbn [s_step] in H;
    repeat match type of H with
    | (if ?x then _ else _) = _ => destruct x eqn:?; [|try discriminate]
    | match ?x with _ => _ end = _ => destruct x as [[? ?]|] eqn:?
    end; try discriminate; inv H; cbn; rewrite ?C1, ?C3;
    repeat match goal with E : s_blk _ = _ |- _ => rewrite E in * end; try tauto;
    destruct (s_blk s) as [[? ?]|]; tauto.
Qed.

(* what the keyword does when the discipline allows the statement *)
Lemma keyword_go k s ty s' : core_st k s -> s_step s ty = Some s' ->
  match ty with
  | TElse | TEndif | TEndforeach | TEndblock =>
      a_keyword k (keyword ty) = ago (kstep k ty) (PEndClean ty None [] None)
  | TIf | TIfdef | TIfndef => a_keyword k (keyword ty) = ago (kstep k ty) (PIfStart ty)
  | TForeach => a_keyword k (keyword ty) = ago (kstep k ty) PForStart
  | TBlock => a_keyword k (keyword ty) = ago (k_enter k) PBBStart
  | _ => True
  end.
Proof.
  intros (C1 & C2 & C3 & C4) H.
  assert (Hoi : a_open_if k = s_open_if s).
  { unfold a_open_if, s_open_if. destruct (s_blk s) as [[b f]|]; [destruct C4 as (-> & -> & _)|rewrite C4];
      rewrite C1; cbn [andb orb negb]; rewrite ?orb_false_r; reflexivity. }
  destruct ty; try exact I; try reflexivity; cbn [s_step] in H; unfold a_keyword; rewrite Hoi; cbn [keyword];
    repeat match goal with |- context [beq (B ?a) (B ?b)] =>
      let r := eval vm_compute in (beq (B a) (B b)) in change (beq (B a) (B b)) with r end; cbv iota.
  - destruct (s_open_if s); [|discriminate]. rewrite C2. destruct (s_else s); [discriminate|]. reflexivity.
  - destruct (s_open_if s); [|discriminate]. reflexivity.
  - rewrite C3. destruct (s_fe s); [discriminate|]. reflexivity.
  - rewrite C3. destruct (s_fe s); [|discriminate]. destruct (s_blk s) as [[b f]|].
    + destruct C4 as (-> & _ & ->). cbn in H. destruct f; [discriminate|]. reflexivity.
    + rewrite C4. reflexivity.
  - destruct (s_blk s); [discriminate|]. rewrite C4. reflexivity.
  - destruct (s_blk s) as [[b f]|]; [|discriminate]. destruct C4 as (-> & -> & ->).
    rewrite C1, C3. destruct (s_ifs s =? b); [|discriminate]. cbn in *. destruct f, (s_fe s); try discriminate; reflexivity.
Qed.

Lemma run_quoted k v o b : forall q rest, quoted_from (last q NUL) b = true -> q <> [] ->
  a_run k (PStr v o q) (b ++ DQ :: rest) = a_run k (PEndClean TIf (Some v) o (Some (q ++ b ++ [DQ]))) rest.
Proof.
  induction b as [|c b IH]; intros q rest H Hq; cbn [app a_run a_step].
  - cbn in H. rewrite eqb_refl. cbn [negb]. apply negb_true_iff in H. rewrite H. reflexivity.
  - cbn [quoted_from] in H. apply andb_true_iff in H. destruct H as [H1 H2].
    assert (Hstep : a_step k (PStr v o q) c (nilb (b ++ DQ :: rest)) = ago k (PStr v o (q ++ [c]))).
    { cbn [a_step]. destruct (c == DQ); cbn [negb]; [rewrite H1; reflexivity|reflexivity]. }
    cbn [a_step] in Hstep. rewrite Hstep. unfold ago. rewrite IH; [|rewrite last_last; exact H2|apply snoc_neq].
    rewrite <- app_assoc. reflexivity.
Qed.

Lemma run_body k s ty s' d0 o d1 b q : core_st k s -> s_step s ty = Some s' -> body ty d0 o d1 b ->
  a_run k PStart (b ++ q) = a_run (kstep k ty) (PEndClean ty d0 o d1) q.
Proof.
  intros Hc Hs Hb. pose proof (keyword_go Hc Hs) as Hk.
  assert (Hec : forall k ty d0 o d1 s q, blanks s -> a_run k (PEndClean ty d0 o d1) (s ++ q) = a_run k (PEndClean ty d0 o d1) q).
  { clear. intros. apply run_name_skip; [|assumption]. intros c b H'. cbn [a_step]. rewrite H'. reflexivity. }
  assert (Hkw : forall c rest, isspace c = true -> a_run k (PKw (keyword ty)) (c :: rest) =
            match a_keyword k (keyword ty) with inl (k', p') => a_run k' p' rest | inr m => inr m end).
  { intros c rest Hsp. cbn [a_run a_step]. rewrite (space_not_lower Hsp), Hsp. reflexivity. }
  assert (Hifv : forall k ty s1 v rest, blanks s1 -> name_ok v ->
            a_run k (PIfStart ty) (s1 ++ v ++ rest) = a_run k (PIfVar ty v) rest).
  { clear. intros k ty s1 v rest Hs1 Hv.
    rewrite run_name_skip; [|intros c b H; cbn [a_step]; rewrite H; reflexivity|assumption].
    destruct v as [|c v]; [destruct Hv|]. destruct Hv as [Hu Hv]. cbn [app a_run a_step].
    rewrite (upper_not_space Hu), Hu. unfold ago.
    rewrite (@run_collect (PIfVar ty) var_char k); [reflexivity| |exact Hv].
    intros d acc b Hd. cbn [a_step]. rewrite Hd. reflexivity. }
  destruct Hb.
  - (* closing statements *)
    destruct (blanks1_inv H1) as (c & r & -> & Hsp & Hr).
    rewrite <- ?app_assoc. rewrite run_start; [|assumption|apply keyword_lower|].
    2: { simpl in H. apply keyword_ne; intros ->; intuition discriminate. }
    cbn [app]. rewrite Hkw by assumption.
    assert (Hk' : a_keyword k (keyword ty) = ago (kstep k ty) (PEndClean ty None [] None)).
    { simpl in H. destruct ty; try exact Hk; intuition discriminate. }
    rewrite Hk'. unfold ago. apply Hec. assumption.
  - (* ifdef, ifndef, foreach *)
    destruct (blanks1_inv H1) as (c & r & -> & Hsp & Hr).
    destruct (blanks1_inv H3) as (c2 & r2 & -> & Hsp2 & Hr2).
    rewrite <- ?app_assoc. cbn [app]. rewrite <- ?app_assoc. rewrite run_start; [|assumption|apply keyword_lower|].
    2: { simpl in H. apply keyword_ne; intros ->; intuition discriminate. }
    rewrite Hkw by assumption. simpl in H.
    destruct ty; try (intuition discriminate); rewrite Hk; unfold ago.
    + rewrite Hifv by assumption. cbn [app a_run a_step]. rewrite (space_not_var Hsp2), Hsp2. unfold ago. apply Hec; assumption.
    + rewrite Hifv by assumption. cbn [app a_run a_step]. rewrite (space_not_var Hsp2), Hsp2. unfold ago. apply Hec; assumption.
    + rewrite run_name_skip; [|intros d b Hd; cbn [a_step]; rewrite Hd; reflexivity|assumption].
      destruct v as [|x v]; [destruct H2|]. destruct H2 as [Hu Hv]. cbn [app a_run a_step].
      rewrite (upper_not_space Hu), Hu. unfold ago.
      rewrite (@run_collect PForVar var_char (kstep k TForeach)); [| |exact Hv].
      2: { intros d acc b Hd. cbn [a_step]. rewrite Hd. reflexivity. }
      cbn [app a_run a_step]. rewrite (space_not_var Hsp2), Hsp2. unfold ago. apply Hec; assumption.
  - (* block *)
    destruct (blanks1_inv H0) as (c & r & -> & Hsp & Hr).
    destruct (blanks1_inv H2) as (c2 & r2 & -> & Hsp2 & Hr2).
    destruct (names_block H1) as (Hn & _ & x & v' & -> & Hx & Hv').
    rewrite <- ?app_assoc. cbn [app]. rewrite <- ?app_assoc. rewrite run_start; [|assumption|apply keyword_lower|discriminate].
    rewrite Hkw by assumption. rewrite Hk. unfold ago.
    rewrite run_name_skip; [|intros d b Hd; cbn [a_step]; rewrite Hd; reflexivity|assumption].
    cbn [app a_run a_step]. rewrite (lower_not_space Hx), Hx. unfold ago. rewrite <- ?app_assoc.
    rewrite (@run_collect PBB (fun c => is_lower c || (c == "_"%char)) (k_enter k)); [| |exact Hv'].
    2: { intros d acc b Hd. cbn [a_step]. rewrite Hd. reflexivity. }
    cbn [app a_run a_step]. rewrite (space_not_lower Hsp2), (space_not_under Hsp2), Hsp2, Hn. cbn [orb].
    unfold ago. apply Hec; assumption.
  - (* if with a string *)
    destruct (blanks1_inv H0) as (c & r & -> & Hsp & Hr).
    destruct (blanks1_inv H2) as (c2 & r2 & -> & Hsp2 & Hr2).
    destruct (blanks1_inv H5) as (c3 & r3 & -> & Hsp3 & Hr3).
    rewrite <- ?app_assoc. cbn [app]. rewrite <- ?app_assoc. rewrite run_start; [|assumption|apply keyword_lower|discriminate].
    rewrite Hkw by assumption. rewrite Hk. unfold ago. rewrite Hifv by assumption.
    cbn [app a_run a_step]. rewrite (space_not_var Hsp2), Hsp2. unfold ago. rewrite <- ?app_assoc.
    rewrite run_name_skip; [|intros d b' Hd; cbn [a_step]; rewrite Hd; reflexivity|assumption].
    destruct o as [|x o]; [congruence|]. cbn [forallb] in H4. apply andb_true_iff in H4. destruct H4 as [Hx Ho].
    apply negb_true_iff in Hx. cbn [app a_run a_step]. rewrite Hx. unfold ago. rewrite <- ?app_assoc.
    rewrite (@run_collect (POp v) (fun c => negb (isspace c)) (kstep k TIf)); [| |exact Ho].
    2: { intros d acc b' Hd. cbn [a_step]. rewrite Hd. reflexivity. }
    cbn [app a_run a_step]. rewrite Hsp3. cbn [negb]. unfold ago. rewrite <- ?app_assoc.
    rewrite run_name_skip; [|intros d b' Hd; cbn [a_step]; rewrite Hd; reflexivity|assumption].
    cbn [app a_run a_step]. cbn [isspace]. change (isspace DQ) with false. change (is_upper DQ) with false.
    change (DQ == DQ) with true. cbv iota. unfold ago. rewrite <- ?app_assoc. cbn [app].
    rewrite run_quoted; [|exact H6|discriminate]. cbn [app]. rewrite Hec by assumption. reflexivity.
  - (* if with a variable *)
    destruct (blanks1_inv H0) as (c & r & -> & Hsp & Hr).
    destruct (blanks1_inv H2) as (c2 & r2 & -> & Hsp2 & Hr2).
    destruct (blanks1_inv H5) as (c3 & r3 & -> & Hsp3 & Hr3).
    rewrite <- ?app_assoc. cbn [app]. rewrite <- ?app_assoc. rewrite run_start; [|assumption|apply keyword_lower|discriminate].
    rewrite Hkw by assumption. rewrite Hk. unfold ago. rewrite Hifv by assumption.
    cbn [app a_run a_step]. rewrite (space_not_var Hsp2), Hsp2. unfold ago. rewrite <- ?app_assoc.
    rewrite run_name_skip; [|intros d b' Hd; cbn [a_step]; rewrite Hd; reflexivity|assumption].
    destruct o as [|y o]; [congruence|]. cbn [forallb] in H4. apply andb_true_iff in H4. destruct H4 as [Hy Ho].
    apply negb_true_iff in Hy. cbn [app a_run a_step]. rewrite Hy. unfold ago. rewrite <- ?app_assoc.
    rewrite (@run_collect (POp v) (fun c => negb (isspace c)) (kstep k TIf)); [| |exact Ho].
    2: { intros d acc b' Hd. cbn [a_step]. rewrite Hd. reflexivity. }
    cbn [app a_run a_step]. rewrite Hsp3. cbn [negb]. unfold ago. rewrite <- ?app_assoc.
    rewrite run_name_skip; [|intros d b' Hd; cbn [a_step]; rewrite Hd; reflexivity|assumption].
    destruct v2 as [|z v2]; [destruct H6|]. destruct H6 as [Hz Hv2]. cbn [app a_run a_step].
    rewrite (upper_not_space Hz), Hz. unfold ago. rewrite <- ?app_assoc.
    rewrite (@run_collect (PVarOp v (y :: o)) var_char (kstep k TIf)); [| |exact Hv2].
    2: { intros d acc b' Hd. cbn [a_step]. rewrite Hd. reflexivity. }
    cbn [app a_run a_step]. rewrite H7. unfold ago. apply Hec; assumption.
Qed.


(* ---- whole items ---- *)

Definition nodes_of (k : acore) : list tnode * bool := (k_ast k, k_lstrip k).
(* the pending text becomes a node *)
Definition settle (k : acore) (u : bytes) : acore := match u with [] => k | _ => k_text k u end.

Lemma core_st_settle k u s : core_st k s -> core_st (settle k u) s.
Proof. destruct u; [auto|]. cbn [settle]. apply core_text_st. Qed.

Lemma kstep_nodes k ty : k_ast (kstep k ty) = k_ast k /\ k_lstrip (kstep k ty) = k_lstrip k.
Proof. destruct ty; split; reflexivity. Qed.

Lemma body_start ty d0 o d1 b q : body ty d0 o d1 b -> exists b', b = b' /\ stmt_start (b' ++ q).
Proof.
  intro H. exists b. split; [reflexivity|].
  assert (G : forall w0 kw r, blanks w0 -> forallb is_lower kw = true -> kw <> [] -> stmt_start ((w0 ++ kw ++ r) ++ q)).
  { intros w0 kw r H0 H1 H2. destruct w0 as [|c w0]; cbn [app stmt_start].
    - destruct kw as [|c kw]; [congruence|]. cbn in *. apply andb_true_iff in H1. destruct H1 as [-> _]. apply orb_true_r.
    - unfold blanks in H0. cbn in H0. apply andb_true_iff in H0. destruct H0 as [-> _]. reflexivity. }
  destruct H; apply G; auto using keyword_lower; try discriminate;
    apply keyword_ne; intros ->; simpl in H; intuition discriminate.
Qed.

Lemma op_means_of o op : op_means o op -> match o with [] => op = ONone | _ => op_of o = Some op end.
Proof.
  intros [[-> ->]|H]; [reflexivity|]. simpl in H.
  repeat (destruct H as [H|H]; [inv H; reflexivity|]). destruct H.
Qed.

Lemma core_st_same k k' s : core_st k s -> k_ifs k' = k_ifs k -> k_bifs k' = k_bifs k -> k_else k' = k_else k ->
  k_fe k' = k_fe k -> k_bfe k' = k_bfe k -> k_block k' = k_block k -> core_st k' s.
Proof. unfold core_st. intros H -> -> -> -> -> ->. exact H. Qed.

Lemma run_tag k u s s' ld ty op d0 o d1 b rd q :
  core_st k s -> s_step s ty = Some s' -> body ty d0 o d1 b -> op_means o op ->
  exists k', a_run k (PText u) (item_text (ITag ld ty op d0 o d1 b rd) ++ q) = a_run k' (PText []) q /\
    core_st k' s' /\ nodes_of k' = push_item (nodes_of (settle k u)) (ITag ld ty op d0 o d1 b rd).
Proof.
  intros Hc Hs Hb Ho. cbn [item_text]. rewrite <- !app_assoc. cbn [B app].
  change (B "{%") with ["{"%char; "%"%char]. change (B "%}") with ["%"%char; "}"%char]. cbn [app].
  cbn [a_run]. change (a_step k (PText u) "{"%char (nilb ("%"%char :: dash ld ++ b ++ dash rd ++ "%"%char :: "}"%char :: q)))
    with (ago k (POpen u)). unfold ago.
  cbn [a_run]. change (a_step k (POpen u) "%"%char (nilb (dash ld ++ b ++ dash rd ++ "%"%char :: "}"%char :: q)))
    with (ago (settle k u) PClean). unfold ago.
  pose proof (core_st_settle u Hc) as Hc1. set (k1 := settle k u) in *.
  destruct (body_start [] Hb) as (b' & <- & Hst). rewrite app_nil_r in Hst.
  rewrite run_clean by exact Hst.
  set (k2 := if ld then k_set_ast k1 (rstrip_last (k_ast k1)) else k1).
  assert (Hc2 : core_st k2 s) by (unfold k2; destruct ld; [apply (core_st_same Hc1); reflexivity|exact Hc1]).
  rewrite (run_body _ Hc2 Hs Hb).
  rewrite run_end. set (k3 := if rd then k_set_lstrip (kstep k2 ty) true else kstep k2 ty).
  pose proof (kstep_core Hc2 Hs) as Hc3.
  assert (Hc4 : core_st k3 s') by (unfold k3; destruct rd; [apply (core_st_same Hc3); reflexivity|exact Hc3]).
  cbn [a_run]. change (a_step k3 (PClose ty d0 o d1) "}"%char (nilb q)) with (a_close k3 ty d0 o d1).
  assert (Hcl : a_close k3 ty d0 o d1 =
    ago (k_push (match ty with TBlock => k_set_bt k3 (option_map cstr d0) | _ => k3 end)
                (Node ty op d0 (option_map cstr d1)) (k_lstrip k3)) (PText [])).
  { pose proof (op_means_of Ho) as Hop. unfold a_close. rewrite (body_d0 Hb). destruct o as [|x o]; [subst op; reflexivity|].
    rewrite Hop. reflexivity. }
  rewrite Hcl. unfold ago. eexists. split; [reflexivity|]. split.
  - apply (core_st_same Hc4); destruct ty; reflexivity.
  - destruct (kstep_nodes k2 ty) as [E1 E2].
    assert (E3 : k_ast k3 = k_ast k2) by (unfold k3; destruct rd; exact E1).
    assert (E4 : k_ast k2 = if ld then rstrip_last (k_ast k1) else k_ast k1) by (unfold k2; destruct ld; reflexivity).
    assert (E5 : k_lstrip k3 = k_lstrip k1 || rd).
    { unfold k3. destruct rd; [rewrite orb_true_r; reflexivity|]. rewrite orb_false_r, E2. unfold k2. destruct ld; reflexivity. }
    unfold nodes_of. cbn [push_item item_node]. rewrite <- E4, <- E3, <- E5. destruct ty; reflexivity.
Qed.

Lemma run_var k u s s1 v s2 q : core_st k s -> blanks s1 -> name_ok v -> blanks s2 ->
  exists k', a_run k (PText u) (item_text (IVar s1 v s2) ++ q) = a_run k' (PText []) q /\
    core_st k' s /\ nodes_of k' = push_item (nodes_of (settle k u)) (IVar s1 v s2).
Proof.
  intros Hc H1 Hv H2. cbn [item_text]. rewrite <- !app_assoc.
  change (B "{{") with ["{"%char; "{"%char]. change (B "}}") with ["}"%char; "}"%char]. cbn [app].
  cbn [a_run]. change (a_step k (PText u) "{"%char (nilb ("{"%char :: s1 ++ v ++ s2 ++ "}"%char :: "}"%char :: q)))
    with (ago k (POpen u)). unfold ago.
  cbn [a_run]. change (a_step k (POpen u) "{"%char (nilb (s1 ++ v ++ s2 ++ "}"%char :: "}"%char :: q)))
    with (ago (settle k u) PVarStart). unfold ago.
  pose proof (core_st_settle u Hc) as Hc1. set (k1 := settle k u) in *.
  rewrite run_name_skip; [|intros d b Hd; cbn [a_step]; rewrite Hd; reflexivity|assumption].
  destruct v as [|c v]; [destruct Hv|]. pose proof (name_no_nul Hv) as Hnn. destruct Hv as [Hu Hv].
  cbn [app a_run a_step]. rewrite (upper_not_space Hu), Hu. unfold ago.
  rewrite (@run_collect PVar var_char k1); [| |exact Hv].
  2: { intros d acc b Hd. cbn [a_step]. rewrite Hd. reflexivity. }
  cbn [app].
  assert (Hfin : a_run k1 (PVar (c :: v)) (s2 ++ "}"%char :: "}"%char :: q) = a_run k1 (PClose TVariable (Some (c :: v)) [] None) ("}"%char :: q)).
  { destruct s2 as [|x s2]; [reflexivity|]. unfold blanks in H2. cbn [forallb] in H2. apply andb_true_iff in H2.
    destruct H2 as [Hx H2]. cbn [app a_run a_step]. rewrite (space_not_var Hx), Hx. unfold ago.
    rewrite run_name_skip; [reflexivity|intros d b Hd; cbn [a_step]; rewrite Hd; reflexivity|assumption]. }
  rewrite Hfin. cbn [a_run]. change (a_step k1 (PClose TVariable (Some (c :: v)) [] None) "}"%char (nilb q))
    with (ago (k_push k1 (Node TVariable ONone (Some (cstr (c :: v))) None) (k_lstrip k1)) (PText [])).
  rewrite Hnn. unfold ago. eexists. split; [reflexivity|]. split.
  - apply (core_st_same Hc1); reflexivity.
  - reflexivity.
Qed.

Lemma no_text_last_cons i j l : no_text_last (i :: j :: l) = no_text_last (j :: l).
Proof. unfold no_text_last. cbn [rev]. destruct (rev l); reflexivity. Qed.

Lemma run_items q : forall l k u s s', core_st k s -> s_run s (map item_type l) = Some s' -> Forall item_ok l ->
  separated l = true -> (u <> [] -> match l with IText _ :: _ => False | _ => True end) ->
  (no_text_last l = true \/ q <> []) ->
  exists k' u', a_run k (PText u) (items_text l ++ q) = a_run k' (PText u') q /\
    core_st k' s' /\ nodes_of (settle k' u') = fold_left push_item l (nodes_of (settle k u)) /\
    (no_text_last l = true -> u' = match l with [] => u | _ => [] end).
Proof.
  induction l as [|i l IH]; intros k u s s' Hc Hr Hok Hsep Hu Hq.
  { cbn in Hr. injection Hr as <-. exists k, u. auto. }
  cbn [map s_run] in Hr. destruct (s_step s (item_type i)) as [s1|] eqn:Es; [|discriminate].
  inversion Hok as [|? ? Hi Hok']; subst.
  assert (Hsep' : separated l = true) by (cbn [separated] in Hsep; destruct l; [reflexivity|]; apply andb_true_iff in Hsep; tauto).
  assert (Hq' : l = [] \/ no_text_last l = true \/ q <> []).
  { destruct l as [|j l]; [auto|]. right. rewrite no_text_last_cons in Hq. exact Hq. }
  change (items_text (i :: l)) with (item_text i ++ items_text l). rewrite <- app_assoc.
  assert (Hnt : forall j l', l = j :: l' -> is_text i = true -> is_text j = false).
  { intros j l' -> Hti. cbn [separated] in Hsep. apply andb_true_iff in Hsep. destruct Hsep as [H _].
    rewrite Hti in H. destruct (is_text j); [discriminate|reflexivity]. }
  cbn [fold_left].
  destruct i as [t|w1 v w2|ld ty op d0 o d1 b rd].
  - cbn [item_ok] in Hi. destruct Hi as [Hne Ht]. destruct u as [|x u]; [|exfalso; apply Hu; discriminate].
    cbn in Es. injection Es as <-.
    assert (Hne2 : items_text l ++ q <> []).
    { destruct l as [|j l].
      - cbn [items_text concat map app]. destruct Hq as [Hq|Hq]; [discriminate|exact Hq].
      - change (items_text (j :: l)) with (item_text j ++ items_text l). inversion Hok' as [|? ? Hj _]; subst.
        destruct j as [t'| |]; cbn [item_text]; [destruct t'; [destruct Hj; congruence|discriminate]|discriminate|discriminate]. }
    cbn [item_text]. rewrite (@run_text k _ Hne2 (length t) t []) by (auto with arith; exact Ht). cbn [app].
    destruct (IH k t s s') as (k' & u' & E1 & E2 & E3 & E4); auto.
    { intros _. destruct l as [|j l]; [exact I|]. specialize (Hnt j l eq_refl eq_refl). destruct j; [discriminate|exact I|exact I]. }
    { destruct Hq' as [->|Hq']; [|exact Hq']. destruct Hq as [Hq|Hq]; [discriminate|auto]. }
    exists k', u'. split; [exact E1|]. split; [exact E2|]. split.
    + rewrite E3. f_equal. destruct t as [|x t]; [congruence|]. reflexivity.
    + intro Hl. destruct l as [|j l]; [discriminate|]. rewrite no_text_last_cons in Hl. apply E4. exact Hl.
  - cbn [item_ok] in Hi. destruct Hi as (H1 & H2 & H3). cbn in Es. injection Es as <-.
    destruct (run_var u (s1 := w1) (s2 := w2) (items_text l ++ q) Hc H1 H2 H3) as (k1 & R1 & R2 & R3).
    destruct (IH k1 [] s s') as (k' & u' & E1 & E2 & E3 & E4); auto; [congruence| |].
    { destruct Hq' as [->|Hq']; [left; reflexivity|exact Hq']. }
    exists k', u'. split; [rewrite R1; exact E1|]. split; [exact E2|]. split; [rewrite E3; cbn [settle]; rewrite R3; reflexivity|].
    intro Hl. destruct l as [|j l]; [apply E4; reflexivity|]. rewrite no_text_last_cons in Hl. apply E4. exact Hl.
  - cbn [item_ok] in Hi. destruct Hi as (H1 & H2). cbn [item_type] in Es.
    destruct (@run_tag k u s s1 ld ty op d0 o d1 b rd (items_text l ++ q) Hc Es H1 H2) as (k1 & R1 & R2 & R3).
    destruct (IH k1 [] s1 s') as (k' & u' & E1 & E2 & E3 & E4); auto; [congruence| |].
    { destruct Hq' as [->|Hq']; [left; reflexivity|exact Hq']. }
    exists k', u'. split; [rewrite R1; exact E1|]. split; [exact E2|]. split; [rewrite E3; cbn [settle]; rewrite R3; reflexivity|].
    intro Hl. destruct l as [|j l]; [apply E4; reflexivity|]. rewrite no_text_last_cons in Hl. apply E4. exact Hl.
Qed.
