(* Rendering a well-structured template reaches no undefined behaviour. *)
From Verif Require Import Base Utils Trie Template TemplateSpec TemplateStruct Renderer RenderTerm.
#[local] Arguments B : simpl never.

(* a node the parser can build: names are not empty, blocks are named *)
Definition nodes_fine (l : list tnode) : Prop :=
  Forall (fun n => (n_type n = TContent \/ n_d0 n <> Some []) /\ n_d1 n <> Some [] /\
                   (n_type n = TBlock -> n_d0 n <> None)) l.

(* ---- the skip loops find their end ---- *)

Lemma skip_to_found ty l : In ty (types l) -> forall p, exists q, skip_to ty l p = Ok q.
Proof.
  induction l as [|n l IH]; intros H p; [destruct H|]. cbn in *.
  destruct (ntype_eqb (n_type n) ty) eqn:E; [eauto|]. destruct H as [H|H]; [|auto].
  subst ty. destruct (n_type n); discriminate.
Qed.

(* conditionals left open *)
Fixpoint ifs (st : list scope) : nat :=
  match st with [] => 0 | ScIf :: r => S (ifs r) | _ :: r => ifs r end.

Lemma skip_if_found we l : forall st p c, nest ifs_blocks st (types l) = Some [] -> c < ifs st ->
  exists r, skip_if we l p c = Ok r.
Proof.
  induction l as [|n l IH]; intros st p c H Hc.
  - cbn in H. injection H as ->. cbn in Hc. lia.
  - cbn [types map nest] in H. cbn [skip_if]. 
    destruct (n_type n) eqn:E; cbn [opens closes ifs_blocks] in H;
      try (apply (IH st); assumption).
    + apply (IH (ScIf :: st)); [assumption|cbn; lia].
    + apply (IH (ScIf :: st)); [assumption|cbn; lia].
    + apply (IH (ScIf :: st)); [assumption|cbn; lia].
    + destruct (we && Nat.eqb c 0); [eauto|]. apply (IH st); assumption.
    + destruct st as [|sc st]; [discriminate|]. destruct sc; try discriminate. cbn [scope_eqb] in H.
      destruct (Nat.ltb_spec 0 c); [|eauto]. apply (IH st); [assumption|]. cbn in Hc. lia.
    + apply (IH (ScBlock :: st)); [assumption|exact Hc].
    + destruct st as [|sc st]; [discriminate|]. destruct sc; try discriminate. cbn [scope_eqb] in H.
      apply (IH st); [assumption|exact Hc].
Qed.

Lemma split_at (l : list tnode) i n : nth_error l i = Some n ->
  l = firstn i l ++ n :: skipn (i + 1) l /\ length (firstn i l) = i.
Proof.
  revert i. induction l as [|m l IH]; intros [|i] H; try discriminate.
  - cbn in H. injection H as ->. cbn. rewrite ?skipn_O. auto.
  - cbn in H. destruct (IH i H) as [H1 H2]. cbn. rewrite <- H1, H2. auto.
Qed.

Lemma closes_later sel sc l : sel sc = true -> forall st, In sc st -> nest sel st l = Some [] ->
  exists ty, In ty l /\ closes ty = Some sc.
Proof.
  intro Hsel. induction l as [|ty l IH]; intros st Hin H.
  - cbn in H. injection H as ->. destruct Hin.
  - cbn [nest] in H.
    assert (Hgo : forall st', In sc st' -> nest sel st' l = Some [] -> exists ty', In ty' (ty :: l) /\ closes ty' = Some sc).
    { intros st' Hin' H'. destruct (IH _ Hin' H') as (t' & ? & ?). exists t'. split; [right|]; assumption. }
    destruct (opens ty) as [so|] eqn:Eo.
    + destruct (sel so); eapply Hgo; [|exact H| |exact H]; [right|]; assumption.
    + destruct (closes ty) as [s2|] eqn:Ec; [|eapply Hgo; eassumption].
      destruct (sel s2); [|eapply Hgo; eassumption]. destruct st as [|s3 st]; [destruct Hin|].
      destruct (scope_eqb s2 s3) eqn:Es; [|discriminate]. assert (s2 = s3) by (destruct s2, s3; try reflexivity; discriminate). subst s3.
      destruct Hin as [->|Hin]; [exists ty; split; [left; reflexivity|assumption]|]. eapply Hgo; eassumption.
Qed.

Section Safe.
Variable convert : bytes -> bytes -> option bytes.
Variable funcs : list (bytes * (vars -> vars)).
Variable tmpl : list tnode.
Variable sources : list vars.
Variable listing : bool.
Hypothesis Hws : well_structured (types tmpl).
Hypothesis Hfine : nodes_fine tmpl.
Notation step := (r_step convert funcs tmpl sources listing).
Notation loop := (r_loop convert funcs tmpl sources listing).

Lemma types_split i n : nth_error tmpl i = Some n ->
  types tmpl = types (firstn i tmpl) ++ n_type n :: types (skipn (i + 1) tmpl).
Proof. intro H. destruct (split_at H) as [E _]. rewrite E at 1. unfold types. rewrite map_app. reflexivity. Qed.

Lemma skipn_cons i n : nth_error tmpl i = Some n -> skipn i tmpl = n :: skipn (i + 1) tmpl.
Proof.
  intro H. destruct (split_at H) as [E L]. rewrite E at 1.
  rewrite skipn_app, skipn_all2 by lia. rewrite L, Nat.sub_diag. reflexivity.
Qed.

Lemma format_variable_safe name g l fn fi : name <> [] -> exists r, format_variable convert funcs name g l fn fi = Ok r.
Proof.
  intro Hn. unfold format_variable. destruct (get_variable name g l); [eauto|].
  destruct (beq name (B "FOREACH_ITEM")); [eauto|].
  destruct (beq name (B "FOREACH_VALUE")); [destruct fn, fi; eauto|].
  destruct (Nat.eqb_spec (length name) 0) as [E|E]; [destruct name; [congruence|discriminate]|].
  destruct (split_size name) as [v sz].
  match goal with |- context [let '(_, _) := ?X in _] => destruct X as [[val|] g'] end; eauto.
Qed.
Lemma r_var_safe s v : v <> [] -> exists x g, r_var convert funcs s v = Ok (x, g).
Proof.
  intro H. destruct (@format_variable_safe v (r_global s) (r_local s) (r_fname s) (r_fitem s) H) as ([x g] & E).
  exists x, g. exact E.
Qed.

Lemma eval_cond_safe s n : n_d0 n <> Some [] -> n_d1 n <> Some [] -> exists b g, eval_cond convert funcs s n = Ok (b, g).
Proof.
  intros H0 H1. unfold eval_cond, rbind.
  assert (E : exists x g, match n_d0 n with Some v => r_var convert funcs s v | None => Ok (None, r_global s) end = Ok (x, g)).
  { destruct (n_d0 n) as [v|]; [apply r_var_safe; congruence|eauto]. }
  destruct E as (x & g & ->). destruct (n_op n); eauto;
  (destruct (n_d1 n) as [d|]; [|eauto];
   destruct (Nat.leb 2 (length d) && (nth 0 d NUL == DQ) && (nth (length d - 1) d NUL == DQ)); [eauto|];
   destruct (@r_var_safe (r_set_out s (r_out s) g) d) as (x2 & g2 & ->); [congruence|eauto]).
Qed.

Lemma block_ends i n p : nth_error tmpl i = Some n -> n_type n = TBlock ->
  exists q, skip_to TEndblock (skipn i tmpl) p = Ok q.
Proof.
  intros Hn Ht. rewrite (skipn_cons Hn). apply skip_to_found. right.
  destruct Hws as (H & _). rewrite (types_split Hn), nest_app in H.
  destruct (nest ifs_blocks [] (types (firstn i tmpl))) as [st|]; [|discriminate]. rewrite Ht in H. cbn [nest opens ifs_blocks] in H.
  destruct (@closes_later ifs_blocks ScBlock _ eq_refl _ (in_eq _ _) H) as (ty & Hin & Hc).
  destruct ty; try discriminate. exact Hin.
Qed.

Lemma for_ends i n p : nth_error tmpl i = Some n -> n_type n = TForeach ->
  exists q, skip_to TEndforeach (skipn i tmpl) p = Ok q.
Proof.
  intros Hn Ht. rewrite (skipn_cons Hn). apply skip_to_found. right.
  destruct Hws as (_ & H & _). rewrite (types_split Hn), nest_app in H.
  destruct (nest fors_blocks [] (types (firstn i tmpl))) as [st|]; [|discriminate]. rewrite Ht in H. cbn [nest opens fors_blocks] in H.
  destruct (@closes_later fors_blocks ScFor _ eq_refl _ (in_eq _ _) H) as (ty & Hin & Hc).
  destruct ty; try discriminate. exact Hin.
Qed.

Lemma if_ends we i n p : nth_error tmpl i = Some n -> In (n_type n) [TIf; TIfdef; TIfndef; TElse] ->
  exists r, skip_if we (skipn (i + 1) tmpl) p 0 = Ok r.
Proof.
  intros Hn Ht. pose proof Hws as (H & _ & _ & _ & He). pose proof (types_split Hn) as E.
  rewrite E, nest_app in H.
  destruct (nest ifs_blocks [] (types (firstn i tmpl))) as [st|] eqn:Est; [|discriminate].
  cbn [nest] in H.
  assert (Hst : exists st', nest ifs_blocks (ScIf :: st') (types (skipn (i + 1) tmpl)) = Some []).
  { simpl in Ht. destruct Ht as [Ht|[Ht|[Ht|[Ht|[]]]]]; rewrite <- Ht in H; cbn [opens closes ifs_blocks] in H; eauto.
    rewrite <- Ht in E. destruct (He _ _ E) as (st' & E'). rewrite E' in Est. injection Est as <-. eauto. }
  destruct Hst as (st' & Hst). apply (@skip_if_found we _ _ p 0 Hst). cbn. lia.
Qed.

Lemma step_safe s n : nth_error tmpl (r_pos s) = Some n -> exists s', step s n = Ok s'.
Proof.
  intro Hn. assert (Hf := proj1 (Forall_forall _ _) Hfine n (nth_error_In _ _ Hn)). cbv beta in Hf.
  destruct Hf as (F0 & F1 & F2). unfold r_step.
  assert (HIF : In (n_type n) [TIf; TIfdef; TIfndef] -> exists s', step_if convert funcs tmpl s n = Ok s').
  { intro Ht. unfold step_if, rbind.
    destruct (@eval_cond_safe (r_set_if s 0 (r_velse s)) n) as (b & g & ->).
    { destruct F0 as [F0|F0]; [|exact F0]. rewrite F0 in Ht. simpl in Ht. intuition discriminate. }
    { exact F1. }
    destruct b; [eauto|]. cbn [r_pos r_ifc r_set_out r_set_if].
    destruct (@if_ends true _ _ (r_pos s + 1) Hn) as ([[q c] st] & ->); [simpl in *; intuition|]. destruct st; eauto. }
  assert (HB : n_type n = TBlock -> forall s1, r_pos s1 = r_pos s -> exists s', skip_block tmpl s1 = Ok s').
  { intros Ht s1 E. unfold skip_block, rbind. rewrite E. destruct (block_ends (r_pos s) Hn Ht) as (q & ->). eauto. }
  destruct (n_type n) eqn:Et; try (apply HIF; simpl; auto; fail); eauto.
  - unfold step_else, rbind. cbn [r_velse r_set_if r_pos]. destruct (r_velse s); [eauto|].
    destruct (@if_ends false _ _ (r_pos s + 1) Hn) as ([[q c] st] & ->); [rewrite Et; simpl; auto|]. eauto.
  - unfold step_foreach, rbind. destruct (r_for s); [eauto|].
    destruct (for_ends (r_pos s) Hn Et) as (q & ->).
    destruct (n_d0 n) as [v|]; [destruct (split_list_variable _ _ _); eauto|eauto].
  - destruct (n_d0 n) as [v|]; [|destruct (F2 eq_refl eq_refl)]. unfold step_block. cbn.
    destruct (beq v (B "entry")); [destruct listing; [apply HB; auto|eauto]|].
    destruct (beq v (B "listing_entry")); [destruct (r_entries s) as [|[e|] rest]; [apply HB; auto| |apply HB; auto]; destruct listing; [eauto|apply HB; auto]|].
    destruct (beq v (B "listing") || beq v (B "listing_empty") || beq v (B "listing_once")); [|eauto].
    destruct (negb listing); [apply HB; auto|]. destruct (beq v (B "listing_empty")); [destruct sources; [eauto|apply HB; auto]|].
    destruct (beq v (B "listing")); [|eauto]. destruct sources; [apply HB; auto|eauto].
  - destruct (n_d0 n) as [v|]; [|eauto]. unfold rbind.
    destruct (@r_var_safe s v) as (x & g & ->); [|eauto]. destruct F0 as [F0|F0]; congruence.
Qed.

Lemma loop_safe f : forall s, loop f s <> UB.
Proof.
  induction f as [|f IH]; intro s; cbn; destruct (nth_error tmpl (r_pos s)) as [n|] eqn:En; try discriminate.
  unfold rbind. destruct (@step_safe s n En) as (s' & ->). apply IH.
Qed.

Theorem render_safe entries config : exists f out, render convert funcs tmpl sources listing f entries config = Ok out.
Proof.
  destruct (@loop_ends convert funcs tmpl sources listing (r_init entries config) (@loops_init tmpl listing entries config)) as (f & Hf).
  exists f. unfold render. destruct tmpl as [|n l] eqn:Et; [eauto|]. rewrite <- Et in *. unfold rbind.
  pose proof (@loop_safe f (r_init entries config)).
  destruct (loop f (r_init entries config)); [eauto|congruence|congruence].
Qed.
End Safe.
