(* Structure of accepted templates, and acceptance of every properly nested one. *)
From Verif Require Import Base Utils Template TemplateAbs TemplateSpec TemplateDoc TemplateFwd.

(* ---- the nodes of the document ---- *)

Lemma rstrip_last_snoc l n : rstrip_last (l ++ [n]) = l ++ rstrip_last [n].
Proof.
  induction l as [|x l IH]; [reflexivity|]. cbn [app]. rewrite <- IH.
  destruct (l ++ [n]) eqn:E; [destruct l; discriminate|]. reflexivity.
Qed.

Lemma body_not_content ty d0 o d1 b : body ty d0 o d1 b -> ty <> TContent.
Proof. intro H. destruct H; try discriminate; intros ->; simpl in H; intuition discriminate. Qed.

Definition tag_fine (i : item) : Prop := match i with ITag _ ty _ _ _ _ _ _ => ty <> TContent | _ => True end.

Lemma item_fine i : item_ok i -> tag_fine i.
Proof. destruct i; cbn; auto. intros [H _]. apply (body_not_content H). Qed.

Lemma push_doc l : Forall tag_fine l -> forall ast cl,
  fst (fold_left push_item l (ast, cl)) = (if cleans_before l then rstrip_last ast else ast) ++ doc_nodes cl l.
Proof.
  induction 1 as [|i l Hi Hl IH]; intros ast cl; [cbn; rewrite app_nil_r; reflexivity|].
  cbn [fold_left push_item]. destruct i as [t|s1 v s2|ld ty op d0 o d1 b rd].
  - rewrite IH. cbn [cleans_before doc_nodes].
    destruct (cleans_before l); [rewrite rstrip_last_snoc; cbn [rstrip_last n_type n_op n_d0 n_d1 option_map]|];
      rewrite <- app_assoc; reflexivity.
  - rewrite IH. cbn [cleans_before doc_nodes item_node].
    destruct (cleans_before l); [rewrite rstrip_last_snoc; cbn [rstrip_last n_type n_op n_d0 n_d1 option_map]|];
      rewrite <- app_assoc; reflexivity.
  - rewrite IH. cbn [doc_nodes item_node]. cbn in Hi.
    set (n := Node ty op d0 (option_map cstr d1)).
    assert (E : rstrip_last [n] = [n]) by (unfold n; cbn; destruct ty; congruence).
    destruct (cleans_before l); [rewrite rstrip_last_snoc, E|]; rewrite <- app_assoc; destruct ld; reflexivity.
Qed.

Lemma push_items_doc l : Forall tag_fine l -> fst (push_items l) = doc_nodes false l.
Proof. intro H. unfold push_items. rewrite push_doc by assumption. destruct (cleans_before l); reflexivity. Qed.

Lemma types_doc l : forall cl, types (doc_nodes cl l) = map item_type l.
Proof.
  induction l as [|i l IH]; intro cl; [reflexivity|]. destruct i; cbn; rewrite IH; reflexivity.
Qed.

Lemma types_rstrip_last l : types (rstrip_last l) = types l.
Proof.
  induction l as [|n l IH]; [reflexivity|]. cbn [rstrip_last]. destruct l as [|m l].
  - destruct n as [ty ? ? ?]. cbn. destruct ty; reflexivity.
  - cbn [types map] in *. f_equal. exact IH.
Qed.

Lemma doc_ideal l : forall cl cl', (cl' = cl \/ (cl' = true /\ existsb is_text l = false)) ->
  cleaners_adjacent cl l = true -> doc_nodes cl' l = ideal_nodes cl l.
Proof.
  induction l as [|i l IH]; intros cl cl' Hcl H; [reflexivity|].
  destruct i as [t|s1 v s2|ld ty op d0 o d1 b rd]; cbn [cleaners_adjacent doc_nodes ideal_nodes existsb is_text orb] in *.
  - destruct Hcl as [->|[_ Hx]]; [|discriminate]. f_equal. apply IH; auto.
  - apply andb_true_iff in H. destruct H as [H1 H2]. f_equal.
    assert (Hx : existsb is_text l = false -> doc_nodes cl' l = ideal_nodes false l).
    { intro Hx. clear -Hx. revert cl'. generalize false as c. induction l as [|i l IH]; intros c cl'; [reflexivity|].
      destruct i; cbn in *; [discriminate| |]; f_equal; apply IH; assumption. }
    destruct Hcl as [->|[_ Hn]]; [|auto]. destruct cl; [|apply IH; auto].
    apply Hx. destruct (existsb is_text l); [discriminate|reflexivity].
  - apply andb_true_iff in H. destruct H as [H1 H2]. f_equal.
    assert (Hx : existsb is_text l = false -> forall c c', doc_nodes c' l = ideal_nodes c l).
    { clear. induction l as [|i l IH]; intros Hx c cl'; [reflexivity|].
      destruct i; cbn in *; [discriminate| |]; f_equal; apply IH; assumption. }
    destruct (existsb is_text l) eqn:Ex; [|auto].
    destruct Hcl as [->|[_ Hn]]; [|congruence].
    destruct cl, rd; cbn in *; try discriminate; apply IH; auto.
Qed.

(* ---- the discipline gives well-structured statements ---- *)

Lemma nest_app sel a b : forall st, nest sel st (a ++ b) =
  match nest sel st a with Some st' => nest sel st' b | None => None end.
Proof.
  induction a as [|ty a IH]; intro st; [reflexivity|]. cbn [app nest].
  destruct (opens ty); [destruct (sel s); apply IH|]. destruct (closes ty); [|apply IH].
  destruct (sel s); [|apply IH]. destruct st as [|sc st]; [reflexivity|]. destruct (scope_eqb s sc); [apply IH|reflexivity].
Qed.

Definition st_ok (s : sst) : Prop :=
  match s_blk s with Some (b, f) => b <= s_ifs s /\ (f = true -> s_fe s = true) | None => True end.

Definition stack_ifs (s : sst) : list scope :=
  match s_blk s with
  | None => repeat ScIf (s_ifs s)
  | Some (b, _) => repeat ScIf (s_ifs s - b) ++ ScBlock :: repeat ScIf b
  end.
Definition stack_fors (s : sst) : list scope :=
  match s_blk s with
  | None => if s_fe s then [ScFor] else []
  | Some (_, true) => [ScBlock; ScFor]
  | Some (_, false) => if s_fe s then [ScFor; ScBlock] else [ScBlock]
  end.
Definition stack_block (s : sst) : list scope := match s_blk s with None => [] | Some _ => [ScBlock] end.
Definition stack_for (s : sst) : list scope := if s_fe s then [ScFor] else [].

Definition stacks (s : sst) (l : list ntype) : Prop :=
  st_ok s /\ nest ifs_blocks [] l = Some (stack_ifs s) /\ nest fors_blocks [] l = Some (stack_fors s) /\
  nest (scope_eqb ScBlock) [] l = Some (stack_block s) /\ nest (scope_eqb ScFor) [] l = Some (stack_for s).

Lemma nest_ifs_step s ty s' : st_ok s -> s_step s ty = Some s' ->
  nest ifs_blocks (stack_ifs s) [ty] = Some (stack_ifs s') /\ st_ok s'.
Proof.
  intros Hok H. destruct s as [n blk e fe]. unfold st_ok, stack_ifs, s_step, s_open_if in *. cbn [s_blk s_ifs s_else s_fe] in *.
  destruct ty.
  1-3: injection H as <-; cbn [s_blk s_ifs]; destruct blk as [[b f]|];
       [replace (n + 1 - b) with (S (n - b)) by lia; split; [reflexivity|destruct Hok; split; [lia|auto]]
       |replace (n + 1) with (S n) by lia; split; reflexivity].
  - destruct blk as [[b f]|].
    + destruct (Nat.ltb_spec b n); [|discriminate]. destruct e; [discriminate|]. cbn in H. injection H as <-. split; [reflexivity|exact Hok].
    + destruct (Nat.ltb_spec 0 n); [|discriminate]. destruct e; [discriminate|]. cbn in H. injection H as <-. split; [reflexivity|exact Hok].
  - destruct blk as [[b f]|].
    + destruct (Nat.ltb_spec b n); [|discriminate]. injection H as <-. cbn [s_blk s_ifs s_fe].
      replace (n - b) with (S (n - 1 - b)) by lia. split; [reflexivity|]. destruct Hok. split; [lia|auto].
    + destruct (Nat.ltb_spec 0 n); [|discriminate]. injection H as <-. cbn [s_blk s_ifs].
      replace n with (S (n - 1)) at 1 by lia. split; reflexivity.
  - destruct fe; [discriminate|]. injection H as <-. cbn. destruct blk as [[b f]|]; split; auto. destruct Hok; split; auto.
  - destruct fe; [|discriminate]. destruct blk as [[b f]|].
    + destruct f; [discriminate|]. cbn in H. injection H as <-. split; [reflexivity|]. cbn. destruct Hok. split; auto; discriminate.
    + cbn in H. injection H as <-. split; [reflexivity|exact I].
  - destruct blk as [[b f]|]; [discriminate|]. injection H as <-. cbn [s_blk s_ifs s_fe].
    rewrite Nat.sub_diag. split; [reflexivity|]. split; auto.
  - destruct blk as [[b f]|]; [|discriminate]. destruct (Nat.eqb_spec n b); [|discriminate]. subst b.
    destruct (f || negb fe) eqn:E; [|discriminate]. cbn in H. injection H as <-. rewrite Nat.sub_diag. split; [reflexivity|exact I].
  - injection H as <-. split; [reflexivity|exact Hok].
  - injection H as <-. split; [reflexivity|exact Hok].
Qed.

Lemma nest_fors_step s ty s' : st_ok s -> s_step s ty = Some s' ->
  nest fors_blocks (stack_fors s) [ty] = Some (stack_fors s') /\
  nest (scope_eqb ScBlock) (stack_block s) [ty] = Some (stack_block s') /\
  nest (scope_eqb ScFor) (stack_for s) [ty] = Some (stack_for s').
Proof.
  intros Hok H. destruct s as [n blk e fe].
  unfold st_ok, stack_fors, stack_block, stack_for, s_step, s_open_if in *. cbn [s_blk s_ifs s_else s_fe] in *.
  destruct ty;
    try (injection H as <-; cbn; destruct blk as [[b [|]]|], fe; repeat split; reflexivity).
  - destruct ((match blk with Some (b, _) => b <? n | None => 0 <? n end) && negb e); [|discriminate].
    injection H as <-. cbn; destruct blk as [[b [|]]|], fe; repeat split; reflexivity.
  - destruct (match blk with Some (b, _) => b <? n | None => 0 <? n end); [|discriminate].
    injection H as <-. cbn; destruct blk as [[b [|]]|], fe; repeat split; reflexivity.
  - destruct fe; [discriminate|]. injection H as <-. destruct blk as [[b [|]]|]; cbn; repeat split; try reflexivity.
    destruct Hok as [_ Hf]. discriminate (Hf eq_refl).
  - destruct fe; [|discriminate]. destruct blk as [[b [|]]|]; [discriminate| |]; cbn in H; injection H as <-; repeat split; reflexivity.
  - destruct blk; [discriminate|]. injection H as <-. destruct fe; repeat split; reflexivity.
  - destruct blk as [[b f]|]; [|discriminate]. destruct (n =? b); [|discriminate].
    destruct f, fe; try discriminate; cbn in H; injection H as <-; repeat split; try reflexivity.
    destruct Hok as [_ Hf]. discriminate (Hf eq_refl).
Qed.

Lemma run_stacks l : forall s, s_run s_init l = Some s -> stacks s l.
Proof.
  induction l as [|ty l IH] using rev_ind; intros s H.
  - cbn in H. injection H as <-. repeat split; reflexivity.
  - rewrite s_run_app in H. destruct (s_run s_init l) as [s1|] eqn:E; [|discriminate].
    cbn [s_run] in H. destruct (s_step s1 ty) as [s2|] eqn:Es; [|discriminate]. injection H as <-.
    destruct (IH s1 eq_refl) as (H0 & H1 & H2 & H3 & H4).
    destruct (nest_ifs_step H0 Es) as [N1 N0]. destruct (nest_fors_step H0 Es) as (N2 & N3 & N4).
    unfold stacks. rewrite !nest_app, H1, H2, H3, H4. auto.
Qed.

Lemma run_prefix s a b s' : s_run s (a ++ b) = Some s' -> exists s1, s_run s a = Some s1 /\ s_run s1 b = Some s'.
Proof. rewrite s_run_app. destruct (s_run s a); [eauto|discriminate]. Qed.

Lemma run_structured l s : s_run s_init l = Some s -> s_final s = true -> well_structured l.
Proof.
  intros H Hf. destruct (run_stacks H) as (H0 & H1 & H2 & H3 & H4).
  unfold s_final in Hf. apply andb_true_iff in Hf. destruct Hf as [Hf Hfe]. apply andb_true_iff in Hf. destruct Hf as [Hi Hb].
  apply Nat.eqb_eq in Hi. unfold stack_ifs, stack_fors in *. destruct (s_blk s); [discriminate|].
  rewrite Hi in H1. destruct (s_fe s); [discriminate|].
  split; [exact H1|]. split; [exact H2|]. split; [|split].
  - intros a ty b -> Ho. destruct (@run_prefix _ a (ty :: b) _ H) as (s1 & Ra & Rb).
    destruct (run_stacks Ra) as (_ & _ & _ & N & _). rewrite N. cbn [s_run] in Rb.
    destruct (s_step s1 ty) as [s2|] eqn:Es; [|discriminate]. unfold stack_block.
    destruct ty; try discriminate. cbn [s_step] in Es. destruct (s_blk s1); [discriminate|reflexivity].
  - intros a ty b -> Ho. destruct (@run_prefix _ a (ty :: b) _ H) as (s1 & Ra & Rb).
    destruct (run_stacks Ra) as (_ & _ & _ & _ & N). rewrite N. cbn [s_run] in Rb.
    destruct (s_step s1 ty) as [s2|] eqn:Es; [|discriminate]. unfold stack_for.
    destruct ty; try discriminate. cbn [s_step] in Es. destruct (s_fe s1); [discriminate|reflexivity].
  - intros a b ->. destruct (@run_prefix _ a (TElse :: b) _ H) as (s1 & Ra & Rb).
    destruct (run_stacks Ra) as (_ & N & _). rewrite N. cbn [s_run s_step] in Rb.
    unfold s_open_if, stack_ifs in *. destruct (s_blk s1) as [[x f]|].
    + destruct (Nat.ltb_spec x (s_ifs s1)); [|discriminate].
      replace (s_ifs s1 - x) with (S (s_ifs s1 - x - 1)) by lia. cbn. eauto.
    + destruct (Nat.ltb_spec 0 (s_ifs s1)); [|discriminate].
      replace (s_ifs s1) with (S (s_ifs s1 - 1)) by lia. cbn. eauto.
Qed.

(* ---- properly nested statements obey the discipline ---- *)

Definition fits (b f : bool) (s : sst) : Prop :=
  s_fe s = f /\ match s_blk s with Some (_, f0) => b = true /\ (f0 = true -> f = true) | None => b = false end.

Definition with_else (s : sst) (e : bool) : sst := Sst (s_ifs s) (s_blk s) e (s_fe s).

Lemma proper_run b f l : proper b f l -> forall s, fits b f s -> st_ok s ->
  exists e, s_run s l = Some (with_else s e) /\ (s_else s = false -> e = false).
Proof.
  induction 1 as [b f|b f ty l Hty _ IH|b f ty t l Hty _ IHt _ IHl|b f ty t e l Hty _ IHt _ IHe _ IHl|b t l _ IHt _ IHl|f t l _ IHt _ IHl];
    intros s Hf Hok.
  - exists (s_else s). destruct s; split; auto.
  - destruct (IH s Hf Hok) as (e & E1 & E2). exists e. split; [|exact E2].
    simpl in Hty. destruct Hty as [<-|[<-|[]]]; exact E1.
  - set (s1 := Sst (s_ifs s + 1) (s_blk s) false (s_fe s)).
    assert (Es : s_step s ty = Some s1) by (simpl in Hty; destruct Hty as [<-|[<-|[<-|[]]]]; reflexivity).
    assert (Hok1 : st_ok s1) by (unfold st_ok, s1 in *; cbn; destruct (s_blk s) as [[? ?]|]; [destruct Hok; split; [lia|auto]|auto]).
    destruct (IHt s1 Hf Hok1) as (e1 & E1 & _).
    assert (Hop : s_open_if (with_else s1 e1) = true).
    { unfold s_open_if, s1. unfold st_ok in Hok. cbn [s_blk s_ifs with_else]. destruct (s_blk s) as [[? ?]|]; apply Nat.ltb_lt; lia. }
    destruct (IHl (with_else s false) Hf Hok) as (e2 & E2 & E3).
    exists e2. split; [|auto]. cbn [s_run]. rewrite Es, s_run_app, E1. cbn [s_run s_step]. rewrite Hop.
    cbn [with_else s_ifs s_blk s_fe s1]. replace (s_ifs s + 1 - 1) with (s_ifs s) by lia. exact E2.
  - set (s1 := Sst (s_ifs s + 1) (s_blk s) false (s_fe s)).
    assert (Es : s_step s ty = Some s1) by (simpl in Hty; destruct Hty as [<-|[<-|[<-|[]]]]; reflexivity).
    assert (Hok1 : st_ok s1) by (unfold st_ok, s1 in *; cbn; destruct (s_blk s) as [[? ?]|]; [destruct Hok; split; [lia|auto]|auto]).
    destruct (IHt s1 Hf Hok1) as (e1 & E1 & E1'). rewrite (E1' eq_refl) in E1.
    assert (Hop : forall x, s_open_if (with_else s1 x) = true).
    { intro x. unfold s_open_if, s1. unfold st_ok in Hok. cbn [s_blk s_ifs with_else]. destruct (s_blk s) as [[? ?]|]; apply Nat.ltb_lt; lia. }
    destruct (IHe (with_else s1 true) Hf Hok1) as (e3 & E3 & _).
    destruct (IHl (with_else s false) Hf Hok) as (e2 & E2 & E2').
    assert (Q1 : s_step (with_else s1 false) TElse = Some (with_else s1 true)) by (cbn [s_step]; rewrite Hop; reflexivity).
    assert (Q2 : s_step (with_else (with_else s1 true) e3) TEndif = Some (with_else s false)).
    { cbn [s_step]. change (with_else (with_else s1 true) e3) with (with_else s1 e3). rewrite Hop.
      cbn. replace (s_ifs s + 1 - 1) with (s_ifs s) by lia. reflexivity. }
    exists e2. split; [|auto]. cbn [s_run]. rewrite Es, s_run_app, E1. cbn [s_run]. rewrite Q1, s_run_app, E3.
    cbn [s_run]. rewrite Q2. exact E2.
  - destruct Hf as [Hfe Hblk]. set (s1 := Sst (s_ifs s) (s_blk s) (s_else s) true).
    assert (Hf1 : fits b true s1).
    { unfold fits, s1 in *. cbn. split; [reflexivity|]. destruct (s_blk s) as [[? f0]|]; [|auto]. destruct Hblk; auto. }
    assert (Hok1 : st_ok s1) by (unfold st_ok, s1 in *; cbn; destruct (s_blk s) as [[? ?]|]; [destruct Hok; split; auto|auto]).
    destruct (IHt s1 Hf1 Hok1) as (e1 & E1 & E1').
    destruct (IHl (with_else s e1)) as (e2 & E2 & E2'); [split; [exact Hfe|exact Hblk]|exact Hok|].
    exists e2. split; [|auto]. cbn [s_run s_step]. rewrite Hfe. rewrite s_run_app. unfold s1 in E1. rewrite E1.
    cbn [s_run s_step with_else s_fe s_blk s_ifs s_else andb].
    replace (match s_blk s with Some (_, f) => negb f | None => true end) with true.
    2: { destruct (s_blk s) as [[? f0]|]; [|reflexivity]. destruct Hblk as [_ Hx]. destruct f0; [discriminate (Hx eq_refl)|reflexivity]. }
    unfold with_else in *. rewrite Hfe in *. exact E2.
  - destruct Hf as [Hfe Hblk]. destruct (s_blk s) as [[? ?]|] eqn:Eb; [destruct Hblk; discriminate|].
    set (s1 := Sst (s_ifs s) (Some (s_ifs s, s_fe s)) (s_else s) (s_fe s)).
    assert (Hf1 : fits true f s1) by (unfold fits, s1; cbn; split; [exact Hfe|]; split; [reflexivity|congruence]).
    assert (Hok1 : st_ok s1) by (unfold st_ok, s1; cbn; auto).
    destruct (IHt s1 Hf1 Hok1) as (e1 & E1 & E1').
    assert (Hok2 : st_ok (with_else s e1)) by exact Hok.
    destruct (IHl (with_else s e1)) as (e2 & E2 & E2'); [split; [exact Hfe|]; cbn; rewrite Eb; reflexivity|exact Hok|].
    exists e2. split; [|auto]. cbn [s_run s_step]. rewrite Eb, s_run_app. fold s1. rewrite E1.
    cbn [s_run s_step with_else s_fe s_blk s_ifs s_else s1]. rewrite Nat.eqb_refl.
    replace (s_fe s || negb (s_fe s)) with true by (destruct (s_fe s); reflexivity). cbn [andb].
    unfold with_else in *. rewrite Eb in *. exact E2.
Qed.

Lemma proper_final l : proper false false l -> exists s, s_run s_init l = Some s /\ s_final s = true.
Proof.
  intro H. destruct (proper_run H (s := s_init)) as (e & E & _); [split; reflexivity|exact I|].
  eexists. split; [exact E|reflexivity].
Qed.

(* ---- documents are accepted ---- *)

Lemma text_ok_last w : text_ok (w ++ B "{") = false.
Proof. induction w as [|a w IHw]; [reflexivity|]. cbn [app text_ok]. rewrite IHw. apply andb_false_r. Qed.

Lemma text_ok_prefix t c : text_ok (t ++ [c]) = true -> (forall u, t <> u ++ B "{") -> text_ok t = true.
Proof.
  induction t as [|x t IH]; intros H Hu; [reflexivity|]. cbn [app text_ok] in *. apply andb_true_iff in H. destruct H as [H1 H2].
  rewrite IH; [|exact H2|intros u ->; apply (Hu (x :: u)); reflexivity].
  rewrite andb_true_r. destruct (x == "{"%char) eqn:E; [|reflexivity].
  destruct t as [|d t]; [|exact H1]. apply eqb_true in E. subst x. exfalso. apply (Hu []). reflexivity.
Qed.

Lemma run_tail k t : t <> [] -> tail_kept t -> exists p, a_run k (PText []) t = inl (k_text k t, p) /\ reading_text p = true.
Proof.
  intros Hne [[Ht Hx]|(u & -> & Ht)].
  - destruct (exists_last Hne) as (t0 & c & ->).
    assert (H0 : text_ok t0 = true).
    { apply (@text_ok_prefix t0 c Ht). intros u ->. apply Hx. exists u, c. rewrite <- app_assoc. reflexivity. }
    assert (Hc : (c == "{"%char) = false).
    { destruct (c == "{"%char) eqn:E; [|reflexivity]. apply eqb_true in E. subst c. rewrite text_ok_last in Ht. discriminate. }
    rewrite (@run_text k [c] ltac:(discriminate) (length t0) t0 []) by auto. cbn [app a_run a_step nilb]. rewrite Hc. unfold ago. eauto.
  - rewrite (@run_text k (B "{") ltac:(discriminate) (length u) u []) by auto. cbn [app]. eexists. split; reflexivity.
Qed.

Lemma final_finish k p s : core_st k s -> s_final s = true -> (forall a b c, p <> PStr a b c) -> a_finish k p = inl (k_ast k).
Proof.
  intros (C1 & C2 & C3 & C4) H Hp. unfold s_final in H.
  apply andb_true_iff in H. destruct H as [H Hfe]. apply andb_true_iff in H. destruct H as [Hi Hb].
  apply Nat.eqb_eq in Hi. destruct (s_blk s); [discriminate|]. rewrite Hi in C1. apply negb_true_iff in Hfe. rewrite Hfe in C3.
  destruct p; unfold a_finish; rewrite ?C1, ?C4, ?C3; try reflexivity. exfalso. eapply Hp. reflexivity.
Qed.

Theorem doc_accepted l t s : items_ok l -> no_text_last l = true ->
  s_run s_init (map item_type l) = Some s -> s_final s = true -> (t = [] \/ tail_kept t) ->
  a_parse (items_text l ++ t) = inl (doc_nodes false (l ++ match t with [] => [] | _ => [IText t] end)).
Proof.
  intros [Hok Hsep] Hnt Hr Hf Ht.
  destruct (@run_items t l k_init [] s_init s) as (k' & u' & E1 & E2 & E3 & E4); auto.
  { repeat split. } { congruence. }
  assert (Hu : u' = []) by (rewrite (E4 Hnt); destruct l; reflexivity). subst u'. cbn [settle] in E3.
  change (nodes_of k_init) with (@nil tnode, false) in E3. fold (push_items l) in E3.
  unfold a_parse. rewrite E1. destruct t as [|c t].
  - cbn [a_run]. rewrite app_nil_r. rewrite (final_finish (p := PText []) E2 Hf) by discriminate.
    rewrite <- push_items_doc by apply (Forall_impl _ item_fine Hok). rewrite <- E3. reflexivity.
  - destruct Ht as [Ht|Ht]; [discriminate|]. destruct (@run_tail k' (c :: t) ltac:(discriminate) Ht) as (p & E5 & Hp).
    rewrite E5. rewrite (@final_finish _ p s (core_text_st (c :: t) E2) Hf) by (intros; destruct p; discriminate).
    f_equal.
    assert (G : fst (push_items (l ++ [IText (c :: t)])) = doc_nodes false (l ++ [IText (c :: t)])).
    { apply push_items_doc. apply Forall_app. split; [|repeat constructor]. apply (Forall_impl _ item_fine Hok). }
    rewrite <- G, push_items_snoc, <- E3. reflexivity.
Qed.

(* ---- documents that break the discipline are refused ---- *)

Lemma keyword_err k s ty : core_st k s -> s_step s ty = None -> exists m, a_keyword k (keyword ty) = inr m.
Proof.
  intros (C1 & C2 & C3 & C4) H.
  assert (Hoi : a_open_if k = s_open_if s).
  { unfold a_open_if, s_open_if. destruct (s_blk s) as [[b f]|]; [destruct C4 as (-> & -> & _)|rewrite C4];
      rewrite C1; cbn [andb orb negb]; rewrite ?orb_false_r; reflexivity. }
  destruct ty; try discriminate; cbn [s_step] in H; unfold a_keyword; rewrite Hoi; cbn [keyword];
    repeat match goal with |- context [beq (B ?a) (B ?b)] =>
      let r := eval vm_compute in (beq (B a) (B b)) in change (beq (B a) (B b)) with r end; cbv iota.
  - destruct (s_open_if s); [|eauto]. rewrite C2. destruct (s_else s); [cbn; eauto|discriminate].
  - destruct (s_open_if s); [discriminate|eauto].
  - rewrite C3. destruct (s_fe s); [cbn; eauto|discriminate].
  - rewrite C3. destruct (s_blk s) as [[b f]|].
    + destruct C4 as (-> & _ & ->). destruct f, (s_fe s); cbn in *; try discriminate; eauto.
    + rewrite C4. destruct (s_fe s); cbn in *; [discriminate|eauto].
  - destruct (s_blk s) as [[b f]|]; [|discriminate]. destruct C4 as (-> & _). cbn. eauto.
  - destruct (s_blk s) as [[b f]|].
    + destruct C4 as (-> & -> & ->). rewrite C1, C3. destruct (s_ifs s =? b); cbn in *; [|eauto].
      destruct f, (s_fe s); cbn in *; try discriminate; eauto.
    + rewrite C4. eauto.
Qed.

Lemma body_shape ty d0 o d1 b : body ty d0 o d1 b ->
  exists w0 c r, b = w0 ++ keyword ty ++ c :: r /\ blanks w0 /\ isspace c = true /\ keyword ty <> [].
Proof.
  intro H. assert (Hk : keyword ty <> []).
  { apply keyword_ne; intros ->; inversion H; subst; simpl in *; intuition discriminate. }
  destruct H as [ty w0 s H H0 H1|ty w0 s1 v s2 H H0 H1 H2 H3|w0 s1 v s2 H0 H1 H2 H3|w0 s1 v s2 o s3 b s4 H0 H1|w0 s1 v s2 o s3 v2 x s4 H0 H1];
    destruct (blanks1_inv H1) as (c & r & -> & Hc & _); exists w0, c; eexists; (split; [reflexivity|auto]).
Qed.

Lemma run_tag_err k u s ld ty op d0 o d1 b rd q :
  core_st k s -> s_step s ty = None -> body ty d0 o d1 b ->
  exists m, a_run k (PText u) (item_text (ITag ld ty op d0 o d1 b rd) ++ q) = inr m.
Proof.
  intros Hc Hs Hb. cbn [item_text]. rewrite <- !app_assoc. cbn [B app].
  change (B "{%") with ["{"%char; "%"%char]. change (B "%}") with ["%"%char; "}"%char]. cbn [app].
  cbn [a_run]. change (a_step k (PText u) "{"%char (nilb ("%"%char :: dash ld ++ b ++ dash rd ++ "%"%char :: "}"%char :: q)))
    with (ago k (POpen u)). unfold ago.
  cbn [a_run]. change (a_step k (POpen u) "%"%char (nilb (dash ld ++ b ++ dash rd ++ "%"%char :: "}"%char :: q)))
    with (ago (settle k u) PClean). unfold ago.
  pose proof (core_st_settle u Hc) as Hc1. set (k1 := settle k u) in *.
  destruct (body_start [] Hb) as (b' & <- & Hst). rewrite app_nil_r in Hst.
  rewrite run_clean by exact Hst.
  set (k2 := if ld then k_set_ast k1 (rstrip_last (k_ast k1)) else k1).
  assert (Hc2 : core_st k2 s) by (unfold k2; destruct ld; [apply (core_st_same Hc1); reflexivity|exact Hc1]).
  destruct (body_shape Hb) as (w0 & c & r & -> & Hw & Hsp & Hne). rewrite <- !app_assoc.
  rewrite run_start; [|assumption|apply keyword_lower|assumption].
  cbn [app a_run a_step]. rewrite (space_not_lower Hsp), Hsp.
  destruct (keyword_err Hc2 Hs) as (m & ->). eauto.
Qed.

Lemma run_items_err q : forall l k u s, core_st k s -> s_run s (map item_type l) = None -> Forall item_ok l ->
  separated l = true -> (u <> [] -> match l with IText _ :: _ => False | _ => True end) ->
  exists m, a_run k (PText u) (items_text l ++ q) = inr m.
Proof.
  induction l as [|i l IH]; intros k u s Hc Hr Hok Hsep Hu; [discriminate|].
  cbn [map s_run] in Hr. inversion Hok as [|? ? Hi Hok']; subst.
  assert (Hsep' : separated l = true) by (cbn [separated] in Hsep; destruct l; [reflexivity|]; apply andb_true_iff in Hsep; tauto).
  change (items_text (i :: l)) with (item_text i ++ items_text l). rewrite <- app_assoc.
  destruct i as [t|w1 v w2|ld ty op d0 o d1 b rd].
  - cbn [item_ok] in Hi. destruct Hi as [Hne Ht]. destruct u as [|x u]; [|exfalso; apply Hu; discriminate].
    cbn in Hr. destruct l as [|j l]; [discriminate|].
    assert (Hj : is_text j = false).
    { cbn [separated is_text] in Hsep. apply andb_true_iff in Hsep. destruct Hsep as [H _]. destruct (is_text j); [discriminate|reflexivity]. }
    cbn [item_text]. rewrite (@run_text k (items_text (j :: l) ++ q)) with (n := length t).
    + apply (IH k ([] ++ t) s); auto. intros _. destruct j; [discriminate|exact I|exact I].
    + change (items_text (j :: l)) with (item_text j ++ items_text l). destruct j; [discriminate| |]; discriminate.
    + auto.
    + exact Ht.
  - cbn [item_ok] in Hi. destruct Hi as (H1 & H2 & H3). cbn in Hr.
    destruct (run_var u (s1 := w1) (s2 := w2) (items_text l ++ q) Hc H1 H2 H3) as (k1 & R1 & R2 & R3).
    rewrite R1. apply (IH k1 [] s); auto; congruence.
  - cbn [item_ok] in Hi. destruct Hi as (H1 & H2). cbn [item_type] in Hr.
    destruct (s_step s ty) as [s1|] eqn:Es.
    + destruct (@run_tag k u s s1 ld ty op d0 o d1 b rd (items_text l ++ q) Hc Es H1 H2) as (k1 & R1 & R2 & R3).
      rewrite R1. apply (IH k1 [] s1); auto; congruence.
    + apply (@run_tag_err k u s); auto.
Qed.

Lemma final_err k p s : core_st k s -> s_final s = false -> exists m, a_finish k p = inr m.
Proof.
  intros (C1 & C2 & C3 & C4) H. unfold s_final in H. unfold a_finish.
  assert (G : exists m, (if negb (k_ifs k =? 0) then inr (MIfs (k_ifs k))
     else if k_block k then inr MBlockOpen else if k_fe k then inr MForeachOpen else inl (k_ast k)) = inr m :> (list tnode + tmsg)).
  { rewrite C1, C3. destruct (s_ifs s =? 0); cbn in *; [|eauto].
    destruct (s_blk s) as [[b f]|]; [destruct C4 as (-> & _); eauto|]. rewrite C4. cbn in H. destruct (s_fe s); [eauto|discriminate]. }
  destruct p; eauto.
Qed.

(* what becomes of a whole document *)
Theorem doc_parse l t : items_ok l -> no_text_last l = true -> (t = [] \/ tail_kept t) ->
  match s_run s_init (map item_type l) with
  | Some s => if s_final s
              then a_parse (items_text l ++ t) = inl (doc_nodes false (l ++ match t with [] => [] | _ => [IText t] end))
              else exists m, a_parse (items_text l ++ t) = inr m
  | None => exists m, a_parse (items_text l ++ t) = inr m
  end.
Proof.
  intros Hok Hnt Ht. destruct (s_run s_init (map item_type l)) as [s|] eqn:E.
  - destruct (s_final s) eqn:Ef; [apply (@doc_accepted l t s); auto|].
    destruct Hok as [Hok Hsep].
    destruct (@run_items t l k_init [] s_init s) as (k' & u' & E1 & E2 & E3 & E4); auto.
    { repeat split. } { congruence. }
    assert (Hu : u' = []) by (rewrite (E4 Hnt); destruct l; reflexivity). subst u'.
    unfold a_parse. rewrite E1. destruct t as [|c t].
    + cbn [a_run]. apply (@final_err _ _ s); auto.
    + destruct Ht as [Ht|Ht]; [discriminate|]. destruct (@run_tail k' (c :: t) ltac:(discriminate) Ht) as (p & -> & Hp).
      apply (@final_err _ _ s); auto.
  - destruct Hok as [Hok Hsep]. destruct (@run_items_err t l k_init [] s_init) as (m & Em); auto.
    { repeat split. } { congruence. }
    unfold a_parse. rewrite Em. eauto.
Qed.

Lemma step_not_final s ty s' : s_step s ty = Some s' -> s_final s' = true ->
  In ty [TVariable; TContent] \/ In ty [TEndif; TEndforeach; TEndblock].
Proof.
  intros H Hf. destruct ty; simpl; auto; exfalso; cbn [s_step] in H.
  1-3: injection H as <-; unfold s_final in Hf; cbn in Hf; destruct (s_ifs s + 1) eqn:E; [lia|discriminate].
  - destruct (s_open_if s) eqn:E; [|discriminate]. destruct (s_else s); [discriminate|]. injection H as <-.
    unfold s_final in Hf. cbn in Hf. apply andb_true_iff in Hf. destruct Hf as [Hf _]. apply andb_true_iff in Hf. destruct Hf as [Hf Hb].
    apply Nat.eqb_eq in Hf. unfold s_open_if in E. rewrite Hf in E. destruct (s_blk s) as [[b f]|]; [discriminate|]. discriminate.
  - destruct (s_fe s); [discriminate|]. injection H as <-. unfold s_final in Hf. cbn in Hf. rewrite andb_false_r in Hf. discriminate.
  - destruct (s_blk s); [discriminate|]. injection H as <-. unfold s_final in Hf. cbn in Hf.
    rewrite andb_false_r in Hf. discriminate.
Qed.

(* every accepted source, whatever it is *)
Theorem accepted_structure src ast : a_parse src = inl ast ->
  well_structured (types ast) \/
  exists l ld ty b z, src = items_text l ++ B "{%" ++ dash ld ++ b ++ z /\ items_ok l /\
    In ty [TEndif; TEndforeach; TEndblock] /\ body ty None [] None b /\ In z [[]; B "-"; B "%"; B "-%"] /\
    types ast = map item_type l /\ well_structured (types ast ++ [ty]).
Proof.
  intro H. destruct (accepted_is_doc H) as (l & tail & ty & s & s' & Hsrc & Hok & He & Hr & Hs & Hf).
  assert (Hfine : Forall tag_fine l) by (apply (Forall_impl _ item_fine); apply Hok).
  assert (Hl : types (fst (push_items l)) = map item_type l) by (rewrite push_items_doc by assumption; apply types_doc).
  inversion He as [E0 E1 E2|t Hne Hk Hnt E0 E1 E2|t Hlost Hnt E0 E1 E2|x ld ty' Hx E0 E1 E2]; subst.
  - left. rewrite Hl. cbn in Hs. injection Hs as <-. apply (run_structured Hr Hf).
  - left. cbn in Hs. injection Hs as <-.
    rewrite push_items_doc by (apply Forall_app; split; [assumption|repeat constructor]). rewrite types_doc, map_app.
    apply (@run_structured _ s); [|assumption]. rewrite s_run_app, Hr. reflexivity.
  - left. rewrite Hl. cbn in Hs. injection Hs as <-. apply (run_structured Hr Hf).
  - assert (Hty : types (if ld then rstrip_last (fst (push_items l)) else fst (push_items l)) = map item_type l)
      by (destruct ld; rewrite ?types_rstrip_last; exact Hl).
    rewrite Hty. destruct (step_not_final Hs Hf) as [Hc|Hc].
    + left. assert (s' = s) by (simpl in Hc; destruct Hc as [<-|[<-|[]]]; cbn in Hs; congruence). subst s'.
      apply (run_structured Hr Hf).
    + destruct Hx as [(y & -> & Hx)|(_ & -> & _)]; [|simpl in Hc; intuition discriminate].
      right. destruct (Hx Hc) as (d0 & o & d1 & b & z & -> & Hb & Hz).
      assert (Hn : d0 = None /\ o = [] /\ d1 = None).
      { simpl in Hc. inversion Hb as [? ? ? Hin|? ? ? ? ? Hin| | |]; subst; auto; exfalso; [simpl in Hin|..]; intuition congruence. }
      destruct Hn as (-> & -> & ->).
      exists l, ld, ty, b, z. split; [unfold opened; reflexivity|]. split; [assumption|]. split; [assumption|].
      split; [assumption|]. split; [assumption|]. split; [reflexivity|].
      apply (@run_structured _ s'); [rewrite s_run_app, Hr; cbn [s_run]; rewrite Hs; reflexivity|assumption].
Qed.

Theorem doc_whole l : items_ok l -> last_text_kept l ->
  match s_run s_init (map item_type l) with
  | Some s => if s_final s then a_parse (items_text l) = inl (doc_nodes false l)
              else exists m, a_parse (items_text l) = inr m
  | None => exists m, a_parse (items_text l) = inr m
  end.
Proof.
  intros Hok Hlast.
  destruct (no_text_last l) eqn:Hnt.
  - pose proof (@doc_parse l [] Hok Hnt (or_introl eq_refl)) as H. rewrite !app_nil_r in H. exact H.
  - assert (Hl : exists l' t, l = l' ++ [IText t]).
    { unfold no_text_last in Hnt. destruct (rev l) as [|i r] eqn:E; [discriminate|]. destruct i as [t| |]; try discriminate.
      exists (rev r), t. rewrite <- (rev_involutive l), E. reflexivity. }
    destruct Hl as (l' & t & ->). destruct Hok as [Hok Hsep]. apply Forall_app in Hok. destruct Hok as [Hok Ht].
    inversion Ht as [|? ? Hit _]; subst. destruct Hit as [Hne Htok].
    assert (Hs : separated l' = true /\ no_text_last l' = true).
    { clear -Hsep. induction l' as [|i l' IH]; [split; reflexivity|]. destruct l' as [|j l'].
      - cbn in *. destruct i; cbn in *; try discriminate; split; reflexivity.
      - cbn [app separated] in *. apply andb_true_iff in Hsep. destruct Hsep as [H1 H2]. destruct (IH H2) as [I1 I2].
        rewrite H1, no_text_last_cons. cbn [separated] in I1. rewrite I1. auto. }
    destruct Hs as [Hs1 Hs2].
    assert (Hk : tail_kept t).
    { left. split; [exact Htok|]. intros (u & x & ->). apply (Hlast l' u x). reflexivity. }
    pose proof (@doc_parse l' t (conj Hok Hs1) Hs2 (or_intror Hk)) as H.
    rewrite map_app, s_run_app. cbn [map item_type s_run s_step].
    assert (E : items_text (l' ++ [IText t]) = items_text l' ++ t) by (rewrite items_text_snoc; reflexivity).
    rewrite E. destruct t as [|c t]; [congruence|]. destruct (s_run s_init (map item_type l')); exact H.
Qed.
