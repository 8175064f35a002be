(* Properties C19, C20, C21: the template parser. *)
From Verif Require Import Base Utils Template TemplateAbs TemplateSpec TemplateDoc TemplateFwd TemplateStruct.

(* C19: every source is parsed to a list of nodes or to an error message whose
   position, when it has one, lies in the source; no read outside the source, no endless loop. *)
Theorem C19_template_total src :
  (exists ast, template_parse src = Ok (inl ast)) \/
  (exists m at_, template_parse src = Ok (inr (TErr m at_)) /\
     (forall i, at_ = Some i -> i < length src)).
Proof.
  pose proof (template_parse_abs src) as H. unfold same in H. destruct (a_parse src) as [ast|m]; eauto.
  destruct H as (at_ & H1 & H2). right. exists m, at_. split; [exact H1|]. intros i ->. exact H2.
Qed.
Print Assumptions C19_template_total.

Example C19_example_ok : exists ast, template_parse (B "a{% if A == ""b"" -%} {{ C }}{% endif %}") = Ok (inl ast).
Proof. eexists. vm_compute. reflexivity. Qed.
Example C19_example_err : exists m, template_parse (B "a{% if A %}") = Ok (inr m).
Proof. eexists. vm_compute. reflexivity. Qed.

(* C20, full claim: whatever is accepted is well structured. It is false: a
   closing statement that is cut off at the end of the template counts as closed. *)
Theorem C20_structure_refuted :
  exists src ast, template_parse src = Ok (inl ast) /\ ~ well_structured (types ast).
Proof.
  exists (B "{% ifdef A %}x{% endif "). eexists. split; [vm_compute; reflexivity|].
  intros (H & _). vm_compute in H. discriminate.
Qed.
Print Assumptions C20_structure_refuted.

(* Whatever is accepted is well structured, or lacks exactly the closing
   statement that the end of the template cuts off. *)
Theorem C20_structure_partial src ast : template_parse src = Ok (inl ast) ->
  well_structured (types ast) \/
  exists l ld ty b z, src = items_text l ++ B "{%" ++ dash ld ++ b ++ z /\ items_ok l /\
    In ty [TEndif; TEndforeach; TEndblock] /\ body ty None [] None b /\ In z [[]; B "-"; B "%"; B "-%"] /\
    types ast = map item_type l /\ well_structured (types ast ++ [ty]).
Proof.
  intro H. apply accepted_structure. pose proof (template_parse_abs src) as G. unfold same in G.
  destruct (a_parse src) as [a|m]; [congruence|]. destruct G as (at_ & G & _). congruence.
Qed.
Print Assumptions C20_structure_partial.

Lemma parse_abs_inl src ast : a_parse src = inl ast -> template_parse src = Ok (inl ast).
Proof. intro H. pose proof (template_parse_abs src) as G. rewrite H in G. exact G. Qed.
Lemma parse_abs_inr src m ast : a_parse src = inr m -> template_parse src = Ok (inl ast) -> False.
Proof. intros H. pose proof (template_parse_abs src) as G. rewrite H in G. destruct G as (at_ & -> & _). discriminate. Qed.

(* A template written out to its end: if it is accepted it is well structured,
   with one node per item; if it is properly nested it is accepted. *)
Theorem C20_documents_partial l : items_ok l -> last_text_kept l ->
  (forall ast, template_parse (items_text l) = Ok (inl ast) ->
     types ast = map item_type l /\ well_structured (types ast)) /\
  (proper false false (map item_type l) -> exists ast, template_parse (items_text l) = Ok (inl ast)).
Proof.
  intros Hok Hlast. pose proof (doc_whole Hok Hlast) as H. split.
  - intros ast Ha. destruct (s_run s_init (map item_type l)) as [s|] eqn:E.
    + destruct (s_final s) eqn:Ef.
      * rewrite (parse_abs_inl H) in Ha. injection Ha as <-. rewrite types_doc. split; [reflexivity|]. apply (run_structured E Ef).
      * destruct H as (m & Hm). destruct (parse_abs_inr Hm Ha).
    + destruct H as (m & Hm). destruct (parse_abs_inr Hm Ha).
  - intro Hp. destruct (proper_final Hp) as (s & E & Ef). rewrite E, Ef in H. eexists. apply parse_abs_inl. exact H.
Qed.
Print Assumptions C20_documents_partial.

(* a template with text, a variable, a nested block, conditional and loop *)
Definition ex_doc : list item :=
  [ITag false TBlock ONone (Some (B "entry")) [] None (B " block entry ") true;
   IText (B " a ");
   ITag true TIf OEq (Some (B "A")) (B "==") (Some (B """x""")) (B " if A == ""x"" ") false;
   IVar (B " ") (B "B") (B " ");
   ITag false TElse ONone None [] None (B " else ") false;
   ITag false TForeach ONone (Some (B "L")) [] None (B " foreach L ") false;
   IText (B "c{d");
   ITag false TEndforeach ONone None [] None (B " endforeach ") false;
   ITag false TEndif ONone None [] None (B " endif ") false;
   ITag false TEndblock ONone None [] None (B " endblock ") false;
   IText (B "end")].

Example ex_doc_text : items_text ex_doc =
  B "{% block entry -%} a {%- if A == ""x"" %}{{ B }}{% else %}{% foreach L %}c{d{% endforeach %}{% endif %}{% endblock %}end".
Proof. vm_compute. reflexivity. Qed.

Lemma bl1 s : forallb isspace s = true -> s <> [] -> blanks1 s. Proof. split; assumption. Qed.

Example ex_doc_ok : items_ok ex_doc /\ last_text_kept ex_doc /\ proper false false (map item_type ex_doc).
Proof.
  assert (S1 : blanks1 (B " ")) by (apply bl1; [reflexivity|discriminate]).
  assert (S0 : blanks (B " ")) by reflexivity. assert (SN : blanks []) by reflexivity.
  assert (Cl : forall ty, In ty [TElse; TEndif; TEndforeach; TEndblock] -> body ty None [] None (B " " ++ keyword ty ++ B " "))
    by (intros; apply BClose; auto).
  assert (ON : op_means [] ONone) by (left; auto).
  split; [split; [|reflexivity]|split].
  - unfold ex_doc. repeat apply Forall_cons; try apply Forall_nil; cbn [item_ok].
    + split; [|exact ON]. apply (BBlock (w0 := B " ") (s1 := B " ") (v := B "entry") (s2 := B " ")); auto. simpl. auto.
    + split; [discriminate|reflexivity].
    + split; [|right; simpl; auto 7].
      apply (BIfString (w0 := B " ") (s1 := B " ") (v := B "A") (s2 := B " ") (o := B "==") (s3 := B " ") (b := B "x") (s4 := B " "));
        auto; try discriminate; try reflexivity. split; reflexivity.
    + repeat split.
    + split; [|exact ON]. apply (Cl TElse). simpl. auto.
    + split; [|exact ON]. apply (BNamed (ty := TForeach) (w0 := B " ") (s1 := B " ") (v := B "L") (s2 := B " ")); auto; [simpl; auto|].
      split; reflexivity.
    + split; [discriminate|reflexivity].
    + split; [|exact ON]. apply (Cl TEndforeach). simpl. auto.
    + split; [|exact ON]. apply (Cl TEndif). simpl. auto.
    + split; [|exact ON]. apply (Cl TEndblock). simpl. auto.
    + split; [discriminate|reflexivity].
  - intros l' u x H. unfold ex_doc in H.
    assert (E : last ex_doc (IText []) = IText (u ++ ["{"%char; x])) by (unfold ex_doc; rewrite H; apply last_last).
    cbn in E. injection E as E. destruct u as [|a [|b [|c [|d u]]]]; try discriminate.
  - cbn. apply (@ProBlock false [TContent; TIf; TVariable; TElse; TForeach; TContent; TEndforeach; TEndif] [TContent]).
    + apply ProLeaf; [simpl; auto|].
      apply (@ProIfElse true false TIf [TVariable] [TForeach; TContent; TEndforeach] []); [simpl; auto| | |constructor].
      * apply ProLeaf; [simpl; auto|constructor].
      * apply (@ProFor true [TContent] []); [apply ProLeaf; [simpl; auto|constructor]|constructor].
    + apply ProLeaf; [simpl; auto|constructor].
Qed.

(* C21, full claim: the texts of an accepted template arrive unchanged, but for
   the blanks next to a whitespace cleaner. It is false: a cleaner at the end of
   a tag also acts on text that does not follow the tag, and the last two bytes
   of a template are lost when the first of them is a brace - with all the text
   they end. *)
Theorem C21_text_refuted :
  (exists l ast, items_ok l /\ template_parse (items_text l) = Ok (inl ast) /\ ast <> ideal_nodes false l) /\
  (exists src, text_ok src = true /\ src <> [] /\ template_parse src = Ok (inl [])).
Proof.
  split.
  - exists [ITag false TIfdef ONone (Some (B "A")) [] None (B " ifdef A ") true; IVar [] (B "C") []; IText (B " c");
            ITag false TEndif ONone None [] None (B " endif ") false].
    eexists. split.
    + assert (S1 : blanks1 (B " ")) by (apply bl1; [reflexivity|discriminate]).
      assert (S0 : blanks (B " ")) by reflexivity. split; [|reflexivity].
      repeat apply Forall_cons; try apply Forall_nil; cbn [item_ok].
      * split; [|left; auto]. apply (BNamed (ty := TIfdef) (w0 := B " ") (s1 := B " ") (v := B "A") (s2 := B " ")); auto; [simpl; auto|].
        split; reflexivity.
      * repeat split.
      * split; [discriminate|reflexivity].
      * split; [|left; auto]. apply (BClose (ty := TEndif) (w0 := B " ") (s := B " ")); auto. simpl. auto.
    + split; [vm_compute; reflexivity|]. vm_compute. discriminate.
  - exists (B "some text {."). split; [reflexivity|]. split; [discriminate|vm_compute; reflexivity].
Qed.
Print Assumptions C21_text_refuted.

(* For every template written out to its end that is accepted, the nodes are
   exactly its items in order, with texts changed by cleaners only; and the
   documented meaning holds when no cleaner is followed by a tag without one.
   (Text after a NUL byte is cut, cstr.) *)
Theorem C21_text_partial l ast : items_ok l -> last_text_kept l ->
  template_parse (items_text l) = Ok (inl ast) ->
  ast = doc_nodes false l /\ (cleaners_adjacent false l = true -> ast = ideal_nodes false l).
Proof.
  intros Hok Hlast Ha. pose proof (doc_whole Hok Hlast) as H.
  assert (E : ast = doc_nodes false l).
  { destruct (s_run s_init (map item_type l)) as [s|].
    - destruct (s_final s).
      + rewrite (parse_abs_inl H) in Ha. congruence.
      + destruct H as (m & Hm). destruct (parse_abs_inr Hm Ha).
    - destruct H as (m & Hm). destruct (parse_abs_inr Hm Ha). }
  split; [exact E|]. intro Hc. rewrite E. apply doc_ideal; auto.
Qed.
Print Assumptions C21_text_partial.

Example C21_example : cleaners_adjacent false ex_doc = true /\ exists ast, template_parse (items_text ex_doc) = Ok (inl ast).
Proof. split; [reflexivity|]. eexists. vm_compute. reflexivity. Qed.

(* every accepted source at all is such a template followed by nothing, by a
   text, or by an unfinished tag *)
Theorem C21_sources_partial src ast : template_parse src = Ok (inl ast) ->
  exists l tail, src = items_text l ++ tail /\ items_ok l /\
    (ast = doc_nodes false l \/ ast = rstrip_last (doc_nodes false l) \/ ast = doc_nodes false (l ++ [IText tail])).
Proof.
  intro H. assert (Ha : a_parse src = inl ast).
  { pose proof (template_parse_abs src) as G. unfold same in G.
    destruct (a_parse src) as [a|m]; [congruence|]. destruct G as (at_ & G & _). congruence. }
  destruct (accepted_is_doc Ha) as (l & tail & ty & s & s' & Hsrc & Hok & He & _).
  assert (Hf : Forall tag_fine l) by (apply (Forall_impl _ item_fine); apply Hok).
  exists l, tail. split; [exact Hsrc|]. split; [exact Hok|].
  rewrite <- (push_items_doc Hf).
  assert (Hf2 : Forall tag_fine (l ++ [IText tail])) by (apply Forall_app; split; [assumption|repeat constructor]).
  rewrite <- (push_items_doc Hf2).
  inversion He; subst; auto. destruct ld; auto.
Qed.
Print Assumptions C21_sources_partial.
