(* Property C98: what blogc -d says about the template. *)
From Verif Require Import Base Utils UtilsProofs Template TemplateSpec TemplateStruct RenderSpec RenderParsed P_Template Debug DebugSpec.
#[local] Arguments B : simpl never.

Lemma debug_ok ast : Forall shape ast -> exists t, debug_template ast = Ok t.
Proof.
  induction 1 as [|n ast Hn H (y & IH)]; [eexists; reflexivity|]. cbn [debug_template].
  assert (E : exists x, debug_node n = Ok x).
  { destruct Hn as [t|v _|c _|v _|v _|ty Hty]; try (eexists; reflexivity).
    - destruct c; eexists; reflexivity.
    - destruct Hty as [<-|[<-|[<-|[<-|[]]]]]; eexists; reflexivity. }
  destruct E as (x & ->). cbn. rewrite IH. eexists. reflexivity.
Qed.

(* C98: whatever template blogc accepts, blogc -d can report it: no string it
   prints is missing. *)
Theorem C98_total src ast : template_parse src = Ok (inl ast) -> exists t, debug_template ast = Ok t.
Proof.
  intro H. apply debug_ok. destruct (C21_sources_partial H) as (l & tail & _ & [Hok _] & E).
  assert (D : Forall shape (doc_nodes false l)) by (apply doc_shape; exact Hok).
  destruct E as [->|[->| ->]]; [exact D|apply rstrip_last_shape; exact D|apply doc_shape_text; exact Hok].
Qed.
Print Assumptions C98_total.

Lemma nn_cut a b : no_nul (a ++ b) -> no_nul a /\ no_nul b.
Proof. unfold no_nul. intro H. split; intro K; apply H; apply in_or_app; auto. Qed.
Lemma blank_space s : Forall blank s -> forallb isspace s = true.
Proof.
  induction 1 as [|c s Hc H IH]; [reflexivity|]. cbn [forallb]. rewrite IH, andb_true_r. simpl in Hc.
  repeat (destruct Hc as [<-|Hc]; [reflexivity|]). destruct Hc.
Qed.
Lemma op_said o op : op_means o op -> o <> [] -> get_operator op = o.
Proof.
  intros [[H _]|H] N; [congruence|]. simpl in H.
  repeat (destruct H as [H|H]; [injection H as <- <-; reflexivity|]). destruct H.
Qed.
Lemma body_operand ty d0 o d1 b w : body ty d0 o d1 b -> d1 = Some w -> no_nul b -> no_nul w.
Proof.
  intros H E Hb. destruct H; inversion E; subst; clear E; repeat (apply nn_cut in Hb; destruct Hb as [? Hb]).
  - change (DQ :: b ++ DQ :: s4) with ((DQ :: b) ++ [DQ] ++ s4) in Hb. rewrite app_assoc in Hb. apply nn_cut in Hb. apply Hb.
  - assumption.
Qed.
Lemma tag_said ld ty op d0 o d1 b rd : body ty d0 o d1 b -> op_means o op -> no_nul b ->
  debug_node (item_node (ITag ld ty op d0 o d1 b rd)) = Ok (says (ITag ld ty op d0 o d1 b rd) []).
Proof.
  intros Hb Ho Hn. cbn [item_node says].
  assert (E : option_map cstr d1 = d1).
  { destruct d1 as [w|]; [|reflexivity]. cbn. rewrite cstr_id; [reflexivity|]. apply (body_operand Hb eq_refl Hn). }
  rewrite E. clear E. destruct Hb as [ty w0 s H|ty w0 s1 v s2 H| |w0 s1 v s2 o s3 b s4 _ _ _ _ N|w0 s1 v s2 o s3 v2 x s4 _ _ _ _ N].
  - destruct H as [<-|[<-|[<-|[<-|[]]]]]; reflexivity.
  - destruct H as [<-|[<-|[<-|[]]]]; unfold debug_node, told; cbn [n_type n_d0 printed rbind app];
      f_equal; rewrite ?app_nil_r; reflexivity.
  - unfold debug_node, told; cbn [n_type n_d0 printed rbind]; rewrite ?app_nil_r; reflexivity.
  - unfold debug_node, told; cbn [n_type n_d0 n_d1 n_op printed rbind]. rewrite (op_said Ho N), <- !app_assoc. reflexivity.
  - unfold debug_node, told; cbn [n_type n_d0 n_d1 n_op printed rbind]. rewrite (op_said Ho N), <- !app_assoc. reflexivity.
Qed.

Lemma nodes_said l : Forall item_ok l -> no_nul (items_text l) -> forall cl,
  exists rs, debug_template (doc_nodes cl l) = Ok (concat rs) /\ Forall2 reported l rs.
Proof.
  induction 1 as [|i l Hi H IH]; intros Hn cl.
  { exists []. split; [reflexivity|constructor]. }
  unfold items_text in Hn. cbn [map concat] in Hn. apply nn_cut in Hn. destruct Hn as [Hni Hnl]. specialize (IH Hnl).
  destruct i as [t|s1 v s2|ld ty op d0 o d1 b rd]; cbn [doc_nodes debug_template].
  - destruct (IH false) as (rs & E & F). rewrite E. cbn in Hni. rewrite (cstr_id Hni).
    set (t1 := if cl then lstrip t else t). set (t2 := if cleans_before l then rstrip t1 else t1).
    exists (says (IText t) t2 :: rs). split; [reflexivity|]. constructor; [|exact F].
    assert (P : exists p, t = p ++ t1 /\ forallb isspace p = true).
    { unfold t1. destruct cl; [|exists []; split; reflexivity]. destruct (lstrip_spec t) as (p & Ep & Hp & _).
      exists p. split; [exact Ep|]. apply blank_space; exact Hp. }
    assert (Q : exists q, t1 = t2 ++ q /\ forallb isspace q = true).
    { unfold t2. destruct (cleans_before l); [|exists []; split; [symmetry; apply app_nil_r|reflexivity]].
      destruct (rstrip_spec t1) as (q & Eq & Hq & _). exists q. split; [exact Eq|]. apply blank_space; exact Hq. }
    destruct P as (p & Ep & Hp). destruct Q as (q & Eq & Hq). exists p, t2, q.
    split; [rewrite <- Eq; exact Ep|]. split; [exact Hp|]. split; [exact Hq|reflexivity].
  - destruct (IH cl) as (rs & E & F). rewrite E. exists (says (IVar s1 v s2) [] :: rs).
    split; [reflexivity|]. constructor; [reflexivity|exact F].
  - destruct (IH (cl || rd)) as (rs & E & F). rewrite E. destruct Hi as [Hb Ho].
    cbn [item_text] in Hni. apply nn_cut in Hni. destruct Hni as [_ Hni]. apply nn_cut in Hni. destruct Hni as [_ Hni].
    apply nn_cut in Hni. destruct Hni as [Hnb _].
    rewrite (tag_said ld rd Hb Ho Hnb). exists (says (ITag ld ty op d0 o d1 b rd) [] :: rs).
    split; [reflexivity|]. constructor; [reflexivity|exact F].
Qed.

Lemma nodes_said_exact l : Forall item_ok l -> no_nul (items_text l) -> no_cleaners l ->
  debug_template (doc_nodes false l) = Ok (concat (map said l)).
Proof.
  induction 1 as [|i l Hi H IH]; intros Hn Hc; [reflexivity|].
  unfold items_text in Hn. cbn [map concat] in Hn. apply nn_cut in Hn. destruct Hn as [Hni Hnl]. apply Forall_cons_iff in Hc. destruct Hc as [Hci Hcl].
  specialize (IH Hnl Hcl).
  destruct i as [t|s1 v s2|ld ty op d0 o d1 b rd]; cbn [doc_nodes debug_template map concat].
  - rewrite IH. cbn in Hni. rewrite (cstr_id Hni).
    assert (E : cleans_before l = false).
    { destruct l as [|[t'|? ? ?|ld ty op d0 o d1 b rd] l]; try reflexivity. inversion Hcl as [|? ? K _]; subst. destruct K as [-> _]. reflexivity. }
    rewrite E. reflexivity.
  - rewrite IH. reflexivity.
  - destruct Hci as [-> ->]. cbn [orb]. rewrite IH. destruct Hi as [Hb Ho].
    cbn [item_text] in Hni. apply nn_cut in Hni. destruct Hni as [_ Hni]. apply nn_cut in Hni. destruct Hni as [_ Hni].
    apply nn_cut in Hni. destruct Hni as [Hnb _].
    rewrite (tag_said false false Hb Ho Hnb). reflexivity.
Qed.

(* C98: for an accepted template blogc -d writes one record for each of its
   texts, variables and statements, in their order, with the statement's word
   in capitals, its name, and the operator and operand as written. *)
Theorem C98_report l ast : items_ok l -> last_text_kept l -> no_nul (items_text l) ->
  template_parse (items_text l) = Ok (inl ast) ->
  (exists rs, debug_template ast = Ok (concat rs) /\ Forall2 reported l rs) /\
  (no_cleaners l -> debug_template ast = Ok (concat (map said l))).
Proof.
  intros Hok Hlast Hn Ha. destruct (C21_text_partial Hok Hlast Ha) as [-> _]. split.
  - apply nodes_said; [apply Hok|exact Hn].
  - intro Hc. apply nodes_said_exact; [apply Hok|exact Hn|exact Hc].
Qed.
Print Assumptions C98_report.

Definition ex_tpl : list item :=
  [IText (B "a "); ITag false TIf OLe (Some (B "X")) (B "<=") (Some (B """b""")) (B " if X <= ""b"" ") false;
   IVar (B " ") (B "Y") (B " "); ITag false TEndif ONone None [] None (B " endif ") false].
Example ex_tpl_text : items_text ex_tpl = B "a {% if X <= ""b"" %}{{ Y }}{% endif %}".
Proof. reflexivity. Qed.
Example ex_tpl_ok : items_ok ex_tpl /\ last_text_kept ex_tpl /\ no_nul (items_text ex_tpl) /\ no_cleaners ex_tpl.
Proof.
  split; [|split; [|split]].
  - split; [|reflexivity]. constructor; [split; [discriminate|reflexivity]|].
    constructor; [split|].
    + apply (@BIfString (B " ") (B " ") (B "X") (B " ") (B "<=") (B " ") (B "b") (B " ")); first [reflexivity|discriminate|split; [reflexivity|first [reflexivity|discriminate]]].
    + right. simpl. auto 10.
    + constructor; [repeat split; reflexivity|]. constructor; [|constructor]. split; [|left; split; reflexivity].
      apply (@BClose TEndif (B " ") (B " ")); [simpl; auto|reflexivity|split; [reflexivity|discriminate]].
  - intros l' u x E. assert (K : last ex_tpl (IText []) = IText (u ++ ["{"%char; x])) by (rewrite E; apply last_last). discriminate K.
  - unfold no_nul. vm_compute. intuition discriminate.
  - repeat constructor.
Qed.
Example ex_tpl_report : exists ast, template_parse (items_text ex_tpl) = Ok (inl ast) /\
  debug_template ast = Ok (told (B "CONTENT: `a `") ++ told (B "IF: X <= ""b""") ++ told (B "VARIABLE: Y") ++ told (B "ENDIF")).
Proof. eexists. split; vm_compute; reflexivity. Qed.
