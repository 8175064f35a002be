(* Parsed templates as nested programs; where the documented scoping holds. *)
From Verif Require Import Base Utils Trie Template TemplateSpec TemplateStruct Renderer RenderTerm RenderSafe RenderSpec.
#[local] Arguments B : simpl never.

(* ---- the nodes the parser builds ---- *)

Inductive shape : tnode -> Prop :=
| ShText t : shape (Node TContent ONone (Some t) None)
| ShVar v : v <> [] -> shape (Node TVariable ONone (Some v) None)
| ShCond c : cond_ok c -> shape (cond_node c)
| ShFor v : v <> [] -> shape (Node TForeach ONone (Some v) None)
| ShBlock v : v <> [] -> shape (Node TBlock ONone (Some v) None)
| ShClose ty : In ty [TElse; TEndif; TEndforeach; TEndblock] -> shape (closing ty).

Lemma name_ok_ne v : name_ok v -> v <> []. Proof. destruct v; [intros []|discriminate]. Qed.

Lemma op_none op : op_means [] op -> op = ONone.
Proof. intros [[_ H]|H]; [exact H|]. simpl in H. intuition discriminate. Qed.
Lemma op_some o op : o <> [] -> op_means o op -> op <> ONone.
Proof. intros Ho [[H _]|H]; [congruence|]. simpl in H. intuition congruence. Qed.
Lemma cstr_ne c r : c <> NUL -> cstr (c :: r) <> [].
Proof. intro H. cbn [cstr]. destruct (Ascii.eqb_spec c NUL); [congruence|discriminate]. Qed.

Lemma item_shape i : item_ok i -> is_text i = false -> shape (item_node i).
Proof.
  destruct i as [t|s1 v s2|ld ty op d0 o d1 b rd]; cbn [item_ok item_node is_text]; [discriminate| |].
  - intros (_ & Hv & _) _. apply ShVar. apply (name_ok_ne Hv).
  - intros (Hb & Ho) _. inversion Hb as [ty' w0 s Hin Hw Hs E1 E2 E3 E4 E5|ty' w0 s1 v s2 Hin Hw Hs1 Hv Hs2 E1 E2 E3 E4 E5
      |w0 s1 v s2 Hw Hs1 Hv Hs2 E1 E2 E3 E4 E5|w0 s1 v s2 o' s3 b' s4 Hw Hs1 Hv Hs2 Hone Hos Hs3 Hq Hs4 E1 E2 E3 E4 E5
      |w0 s1 v s2 o' s3 v2 x s4 Hw Hs1 Hv Hs2 Hone Hos Hs3 Hv2 Hx Hs4 E1 E2 E3 E4 E5]; subst.
    + rewrite (op_none Ho). apply ShClose. assumption.
    + rewrite (op_none Ho). apply name_ok_ne in Hv. simpl in Hin. destruct Hin as [<-|[<-|[<-|[]]]].
      * apply (@ShCond (CDef v)). exact Hv.
      * apply (@ShCond (CNdef v)). exact Hv.
      * apply ShFor. exact Hv.
    + rewrite (op_none Ho). apply ShBlock. simpl in Hv. intuition (subst; discriminate).
    + cbn [option_map]. apply (@ShCond (CCmp v op _)). split; [apply (name_ok_ne Hv)|]. split; [apply cstr_ne; discriminate|].
      apply (op_some Hone Ho).
    + cbn [option_map]. apply (@ShCond (CCmp v op _)). split; [apply (name_ok_ne Hv)|]. split; [|apply (op_some Hone Ho)].
      destruct v2 as [|c v2]; [destruct Hv2|]. destruct Hv2 as [Hc _]. apply cstr_ne. intros ->. discriminate.
Qed.

Lemma doc_shape l : Forall item_ok l -> forall cl, Forall shape (doc_nodes cl l).
Proof.
  induction 1 as [|i l Hi Hl IH]; intro cl; [constructor|].
  destruct i as [t|s1 v s2|ld ty op d0 o d1 b rd]; cbn [doc_nodes]; constructor; auto.
  - constructor.
  - apply (item_shape Hi). reflexivity.
  - apply (item_shape Hi). reflexivity.
Qed.

Lemma doc_shape_text l t : Forall item_ok l -> forall cl, Forall shape (doc_nodes cl (l ++ [IText t])).
Proof.
  induction 1 as [|i l Hi Hl IH]; intro cl; [repeat constructor|]. cbn [app].
  destruct i as [t'|s1 v s2|ld ty op d0 o d1 b rd]; cbn [doc_nodes]; constructor; auto.
  - constructor.
  - apply (item_shape Hi). reflexivity.
  - apply (item_shape Hi). reflexivity.
Qed.

Lemma rstrip_last_shape l : Forall shape l -> Forall shape (rstrip_last l).
Proof.
  induction 1 as [|n l Hn Hl IH]; [constructor|]. cbn [rstrip_last]. destruct l as [|m l].
  - assert (H1 : n_type n <> TContent -> Forall shape match n_type n with
      | TContent => [Node (n_type n) (n_op n) (option_map rstrip (n_d0 n)) (n_d1 n)] | _ => [n] end).
    { intro H. destruct (n_type n) eqn:E; try congruence; repeat constructor; assumption. }
    inversion Hn; subst; try (apply H1; discriminate).
    + repeat constructor.
    + apply H1. destruct c; discriminate.
    + apply H1. simpl in *. intuition (subst; discriminate).
  - constructor; assumption.
Qed.

Lemma shape_fine l : Forall shape l -> nodes_fine l.
Proof.
  unfold nodes_fine. apply Forall_impl. intros n H. inversion H; subst; cbn [n_type n_d0 n_d1].
  - split; [left; reflexivity|]. split; [discriminate|discriminate].
  - split; [right; congruence|]. split; discriminate.
  - destruct c; cbn in *; (split; [right; intuition congruence|split; [intuition congruence|discriminate]]).
  - split; [right; congruence|]. split; discriminate.
  - split; [right; congruence|]. split; discriminate.
  - split; [right; discriminate|]. split; [discriminate|]. simpl in *. intuition congruence.
Qed.

(* ---- properly nested nodes are a flattened program ---- *)

Lemma shape_cond n : shape n -> In (n_type n) [TIf; TIfdef; TIfndef] -> exists c, n = cond_node c /\ cond_ok c.
Proof. intros H Hin. inversion H; subst; eauto; simpl in *; exfalso; intuition (subst; discriminate). Qed.
Lemma shape_close n ty : shape n -> n_type n = ty -> In ty [TElse; TEndif; TEndforeach; TEndblock] -> n = closing ty.
Proof.
  intros H E Hin. subst ty. inversion H; subst; try (simpl in Hin; exfalso; intuition discriminate); [|reflexivity].
  destruct c; simpl in Hin; exfalso; intuition discriminate.
Qed.

Lemma types_app_inv (a b : list ntype) ns : types ns = a ++ b -> exists x y, ns = x ++ y /\ types x = a /\ types y = b.
Proof. intro H. apply map_eq_app in H. destruct H as (x & y & -> & <- & <-). eauto. Qed.
Lemma types_cons_inv ty (b : list ntype) ns : types ns = ty :: b -> exists n y, ns = n :: y /\ n_type n = ty /\ types y = b.
Proof. destruct ns as [|n y]; [discriminate|]. cbn. intro H. injection H as <- <-. eauto. Qed.

Theorem proper_flat b f tys : proper b f tys -> forall ns, types ns = tys -> Forall shape ns ->
  exists t, ns = flatten t /\ fits b f t.
Proof.
  induction 1 as [b f|b f ty l Hin Hp IH|b f ty t l Hin Ht IHt Hl IHl|b f ty t e l Hin Ht IHt He IHe Hl IHl|b t l Ht IHt Hl IHl|f t l Ht IHt Hl IHl];
    intros ns Hty Hsh.
  - destruct ns; [|discriminate]. exists PEnd. split; [reflexivity|exact I].
  - apply types_cons_inv in Hty. destruct Hty as (n & y & -> & <- & Hy). inversion Hsh as [|? ? Hn Hs]; subst.
    destruct (IH y eq_refl Hs) as (t & -> & Hf). 
    inversion Hn; subst; try (simpl in Hin; exfalso; intuition discriminate).
    + exists (PText t0 t). split; [reflexivity|exact Hf].
    + exists (PVar v t). split; [reflexivity|split; assumption].
    + destruct c; simpl in Hin; exfalso; intuition discriminate.
    + simpl in *. exfalso. intuition (subst; discriminate).
  - apply types_cons_inv in Hty. destruct Hty as (n & y & -> & <- & Hy).
    apply types_app_inv in Hy. destruct Hy as (x & y' & -> & Hx & Hy'). apply types_cons_inv in Hy'. destruct Hy' as (m & y & -> & Hm & Hy).
    inversion Hsh as [|? ? Hn Hs]; subst. apply Forall_app in Hs. destruct Hs as [Hs1 Hs2]. inversion Hs2 as [|? ? Hm' Hs3]; subst.
    destruct (shape_cond Hn Hin) as (c & -> & Hc). rewrite (shape_close Hm' Hm) by (simpl; auto).
    destruct (IHt x eq_refl Hs1) as (t1 & -> & F1). destruct (IHl y eq_refl Hs3) as (t2 & -> & F2).
    exists (PIf c t1 t2). split; [reflexivity|]. cbn. auto.
  - apply types_cons_inv in Hty. destruct Hty as (n & y & -> & <- & Hy).
    apply types_app_inv in Hy. destruct Hy as (x & y' & -> & Hx & Hy'). apply types_cons_inv in Hy'. destruct Hy' as (m & y & -> & Hm & Hy).
    apply types_app_inv in Hy. destruct Hy as (z & y' & -> & Hz & Hy'). apply types_cons_inv in Hy'. destruct Hy' as (m2 & y & -> & Hm2 & Hy).
    inversion Hsh as [|? ? Hn Hs]; subst. apply Forall_app in Hs. destruct Hs as [Hs1 Hs2]. inversion Hs2 as [|? ? Hm' Hs3]; subst.
    apply Forall_app in Hs3. destruct Hs3 as [Hs3 Hs4]. inversion Hs4 as [|? ? Hm2' Hs5]; subst.
    destruct (shape_cond Hn Hin) as (c & -> & Hc). rewrite (shape_close Hm' Hm), (shape_close Hm2' Hm2) by (simpl; auto).
    destruct (IHt x eq_refl Hs1) as (t1 & -> & F1). destruct (IHe z eq_refl Hs3) as (t3 & -> & F3). destruct (IHl y eq_refl Hs5) as (t2 & -> & F2).
    exists (PIfElse c t1 t3 t2). split; [reflexivity|]. cbn. auto.
  - apply types_cons_inv in Hty. destruct Hty as (n & y & -> & Hnt & Hy).
    apply types_app_inv in Hy. destruct Hy as (x & y' & -> & Hx & Hy'). apply types_cons_inv in Hy'. destruct Hy' as (m & y & -> & Hm & Hy).
    inversion Hsh as [|? ? Hn Hs]; subst. apply Forall_app in Hs. destruct Hs as [Hs1 Hs2]. inversion Hs2 as [|? ? Hm' Hs3]; subst.
    rewrite (shape_close Hm' Hm) by (simpl; auto).
    destruct (IHt x eq_refl Hs1) as (t1 & -> & F1). destruct (IHl y eq_refl Hs3) as (t2 & -> & F2).
    inversion Hn; subst; try discriminate; [destruct c; discriminate| |simpl in *; exfalso; intuition (subst; discriminate)].
    exists (PFor v t1 t2). split; [reflexivity|]. cbn. auto.
  - apply types_cons_inv in Hty. destruct Hty as (n & y & -> & Hnt & Hy).
    apply types_app_inv in Hy. destruct Hy as (x & y' & -> & Hx & Hy'). apply types_cons_inv in Hy'. destruct Hy' as (m & y & -> & Hm & Hy).
    inversion Hsh as [|? ? Hn Hs]; subst. apply Forall_app in Hs. destruct Hs as [Hs1 Hs2]. inversion Hs2 as [|? ? Hm' Hs3]; subst.
    rewrite (shape_close Hm' Hm) by (simpl; auto).
    destruct (IHt x eq_refl Hs1) as (t1 & -> & F1). destruct (IHl y eq_refl Hs3) as (t2 & -> & F2).
    inversion Hn; subst; try discriminate; [destruct c; discriminate| |simpl in *; exfalso; intuition (subst; discriminate)].
    exists (PBlock v t1 t2). split; [reflexivity|]. cbn. auto.
Qed.

(* ---- the documented scoping ---- *)

Section Calm.
Variable convert : bytes -> bytes -> option bytes.
Variable inject : trie bytes -> bytes -> trie bytes.
Variable sources : list (trie bytes).
Variable listing : bool.
Notation actual := (meaning convert inject sources listing true).
Notation ideal := (meaning convert inject sources listing false).

Definition same_scope (e e' : env) : Prop := e_local e' = e_local e /\ e_last e' = e_last e.

Lemma var_scope v lp e : same_scope e (snd (var_in convert inject v lp e)).
Proof. unfold var_in. destruct (resolve _ _ _ _ _ _). split; reflexivity. Qed.
Lemma holds_scope c lp e : same_scope e (snd (holds convert inject c lp e)).
Proof.
  assert (H : forall v e0 e1 x, var_in convert inject v lp e0 = (x, e1) -> same_scope e0 e1).
  { intros v e0 e1 x E. pose proof (var_scope v lp e0) as H. rewrite E in H. exact H. }
  destruct c as [v|v|v o d]; cbn [holds]; destruct (var_in convert inject v lp e) as [x e1] eqn:E1; pose proof (H _ _ _ _ E1) as H1; try exact H1.
  destruct (is_quoted d); [exact H1|]. destruct (var_in convert inject d lp e1) as [y e2] eqn:E2. pose proof (H _ _ _ _ E2) as H2. cbn.
  unfold same_scope in *. destruct H1, H2. split; congruence.
Qed.

Lemma rounds_ext (A : Type) (f g : A -> env -> bytes * env) (P : env -> Prop) l :
  (forall x e, P e -> f x e = g x e /\ P (snd (f x e))) -> forall e, P e -> rounds f l e = rounds g l e /\ P (snd (rounds f l e)).
Proof.
  intro H. induction l as [|x l IH]; intros e He; [split; [reflexivity|exact He]|]. cbn.
  destruct (H x e He) as [E1 P1]. rewrite <- E1. destruct (f x e) as [o e1]. destruct (IH e1 P1) as [E2 P2]. rewrite <- E2.
  destruct (rounds f l e1) as [o2 e2]. split; [reflexivity|exact P2].
Qed.

(* without blocks *)
Lemma inside_same f t : fits true f t -> forall lp e, actual t lp e = ideal t lp e /\ same_scope e (snd (actual t lp e)).
Proof.
  revert f. induction t as [|x k IHk|v k IHk|c a IHa k IHk|c a IHa b IHb k IHk|v a IHa k IHk|n a IHa k IHk];
    intros f Hf lp e; cbn [fits] in Hf; cbn [meaning].
  - repeat split.
  - destruct (IHk f Hf lp e) as [E S]. rewrite <- E. destruct (actual k lp e). split; [reflexivity|exact S].
  - destruct Hf as [_ Hf]. pose proof (var_scope v lp e) as Sv. destruct (var_in convert inject v lp e) as [y e1].
    destruct (IHk f Hf lp e1) as [E S]. rewrite <- E. destruct (actual k lp e1). split; [reflexivity|].
    unfold same_scope in *. cbn in *. destruct Sv, S. split; congruence.
  - destruct Hf as (_ & Ha & Hk). pose proof (holds_scope c lp e) as Sv. destruct (holds convert inject c lp e) as [y e1]. cbn [snd] in Sv.
    assert (H1 : exists o e2, (if y then actual a lp e1 else ([], e1)) = (o, e2) /\ (if y then ideal a lp e1 else ([], e1)) = (o, e2) /\ same_scope e1 e2).
    { destruct y; [|eexists _, _; repeat split]. destruct (IHa f Ha lp e1) as [E S]. rewrite <- E. destruct (actual a lp e1). eexists _, _. repeat split; apply S. }
    destruct H1 as (o & e2 & -> & -> & S1). destruct (IHk f Hk lp e2) as [E S]. rewrite <- E. destruct (actual k lp e2). split; [reflexivity|].
    unfold same_scope in *. cbn in *. destruct Sv, S1, S. split; congruence.
  - destruct Hf as (_ & Ha & Hb & Hk). pose proof (holds_scope c lp e) as Sv. destruct (holds convert inject c lp e) as [y e1]. cbn [snd] in Sv.
    assert (H1 : exists o e2, (if y then actual a lp e1 else actual b lp e1) = (o, e2) /\ (if y then ideal a lp e1 else ideal b lp e1) = (o, e2) /\ same_scope e1 e2).
    { destruct y; [destruct (IHa f Ha lp e1) as [E S]; rewrite <- E; destruct (actual a lp e1)|destruct (IHb f Hb lp e1) as [E S]; rewrite <- E; destruct (actual b lp e1)];
      eexists _, _; repeat split; apply S. }
    destruct H1 as (o & e2 & -> & -> & S1). destruct (IHk f Hk lp e2) as [E S]. rewrite <- E. destruct (actual k lp e2). split; [reflexivity|].
    unfold same_scope in *. cbn in *. destruct Sv, S1, S. split; congruence.
  - destruct Hf as (_ & Ha & Hk). set (items := match lookup v (e_global e) (e_local e) with Some s => words s | None => [] end).
    destruct (@rounds_ext _ (fun w => actual a (Some (v, w))) (fun w => ideal a (Some (v, w))) (same_scope e) items) with (e := e) as [E1 S1].
    { intros w e0 S0. destruct (IHa true Ha (Some (v, w)) e0) as [E S]. split; [exact E|]. unfold same_scope in *. destruct S0, S. split; congruence. }
    { split; reflexivity. }
    rewrite <- E1. destruct (rounds (fun w => actual a (Some (v, w))) items e) as [o e2]. cbn [snd] in S1.
    destruct (IHk f Hk lp e2) as [E S]. rewrite <- E. destruct (actual k lp e2). split; [reflexivity|].
    unfold same_scope in *. cbn in *. destruct S1, S. split; congruence.
  - destruct Hf as (H & _). discriminate.
Qed.

Definition quiet (seen : bool) (e : env) : Prop := (seen = false -> e_last e = None) /\ e_local e = None.

Lemma quiet_weaken seen x e : quiet seen e -> quiet (seen || x) e.
Proof. intros [H1 H2]. split; [|exact H2]. intro H. apply H1. destruct seen; [discriminate|reflexivity]. Qed.
Lemma quiet_scope seen e e' : quiet seen e -> same_scope e e' -> quiet seen e'.
Proof. intros [H1 H2] [S1 S2]. split; [rewrite S2; exact H1|congruence]. Qed.
Lemma quiet_true e : e_local e = None -> quiet true e.
Proof. intro H. split; [discriminate|exact H]. Qed.

Theorem calm_same t : forall f lp seen e, fits false f t -> calm sources listing seen t = true -> quiet seen e ->
  actual t lp e = ideal t lp e /\ quiet (seen || showing sources listing t) (snd (actual t lp e)).
Proof.
  induction t as [|x k IHk|v k IHk|c a IHa k IHk|c a IHa b IHb k IHk|v a IHa k IHk|n a IHa k IHk];
    intros f lp seen e Hf Hc Hq; cbn [fits] in Hf; cbn [meaning]; cbn [calm] in Hc; cbn [showing].
  - split; [reflexivity|]. rewrite orb_false_r. exact Hq.
  - destruct (IHk f lp seen e Hf Hc Hq) as [E S]. rewrite <- E. destruct (actual k lp e). split; [reflexivity|exact S].
  - destruct Hf as [_ Hf]. pose proof (var_scope v lp e) as Sv. destruct (var_in convert inject v lp e) as [y e1].
    destruct (IHk f lp seen e1 Hf Hc (quiet_scope Hq Sv)) as [E S]. rewrite <- E. destruct (actual k lp e1). split; [reflexivity|exact S].
  - destruct Hf as (_ & Ha & Hk). apply andb_true_iff in Hc. destruct Hc as [Ca Ck].
    pose proof (holds_scope c lp e) as Sv. destruct (holds convert inject c lp e) as [y e1]. pose proof (quiet_scope Hq Sv) as Hq1. cbn [snd] in Hq1.
    assert (H1 : exists o e2, (if y then actual a lp e1 else ([], e1)) = (o, e2) /\ (if y then ideal a lp e1 else ([], e1)) = (o, e2) /\ quiet (seen || showing sources listing a) e2).
    { destruct y; [|eexists _, _; split; [reflexivity|split; [reflexivity|apply quiet_weaken; exact Hq1]]].
      destruct (IHa f lp seen e1 Ha Ca Hq1) as [E S]. rewrite <- E. destruct (actual a lp e1). eexists _, _. repeat split; apply S. }
    destruct H1 as (o & e2 & -> & -> & S1). destruct (IHk f lp _ e2 Hk Ck S1) as [E S]. rewrite <- E. destruct (actual k lp e2).
    split; [reflexivity|]. rewrite orb_assoc. exact S.
  - destruct Hf as (_ & Ha & Hb & Hk). apply andb_true_iff in Hc. destruct Hc as [Cab Ck]. apply andb_true_iff in Cab. destruct Cab as [Ca Cb].
    pose proof (holds_scope c lp e) as Sv. destruct (holds convert inject c lp e) as [y e1]. pose proof (quiet_scope Hq Sv) as Hq1. cbn [snd] in Hq1.
    assert (H1 : exists o e2, (if y then actual a lp e1 else actual b lp e1) = (o, e2) /\ (if y then ideal a lp e1 else ideal b lp e1) = (o, e2) /\
       quiet (seen || showing sources listing a || showing sources listing b) e2).
    { destruct y.
      - destruct (IHa f lp seen e1 Ha Ca Hq1) as [E S]. rewrite <- E. destruct (actual a lp e1). eexists _, _. split; [reflexivity|]. split; [reflexivity|]. apply quiet_weaken. exact S.
      - destruct (IHb f lp seen e1 Hb Cb Hq1) as [E S]. rewrite <- E. destruct (actual b lp e1). eexists _, _. split; [reflexivity|]. split; [reflexivity|].
        rewrite <- orb_assoc, (orb_comm (showing sources listing a)), orb_assoc. apply quiet_weaken. exact S. }
    destruct H1 as (o & e2 & -> & -> & S1). destruct (IHk f lp _ e2 Hk Ck S1) as [E S]. rewrite <- E. destruct (actual k lp e2).
    split; [reflexivity|]. rewrite !orb_assoc. exact S.
  - destruct Hf as (-> & Ha & Hk). apply andb_true_iff in Hc. destruct Hc as [Ca Ck].
    set (items := match lookup v (e_global e) (e_local e) with Some s => words s | None => [] end).
    destruct (@rounds_ext _ (fun w => actual a (Some (v, w))) (fun w => ideal a (Some (v, w))) (quiet (seen || showing sources listing a)) items) with (e := e) as [E1 S1].
    { intros w e0 S0. destruct (IHa true (Some (v, w)) _ e0 Ha Ca S0) as [E S]. split; [exact E|].
      rewrite <- orb_assoc, orb_diag in S. exact S. }
    { apply quiet_weaken. exact Hq. }
    rewrite <- E1. destruct (rounds (fun w => actual a (Some (v, w))) items e) as [o e2]. cbn [snd] in S1.
    destruct (IHk false lp _ e2 Hk Ck S1) as [E S]. rewrite <- E. destruct (actual k lp e2). split; [reflexivity|].
    rewrite orb_assoc. exact S.
  - destruct Hf as (_ & Ha & Hk). apply andb_true_iff in Hc. destruct Hc as [Ca Ck].
    assert (H1 : exists o e2,
      (let '(act, e1) := block_action sources listing n e in
       match act with
       | Skip => ([], leave_skipped true e1)
       | Once => let '(o, e2) := actual a lp (enter_plain true e1) in (o, hide e2)
       | Each l => rounds (fun x e2 => let '(o, e3) := actual a lp (see e2 x) in (o, hide e3)) l e1
       end) = (o, e2) /\
      (let '(act, e1) := block_action sources listing n e in
       match act with
       | Skip => ([], leave_skipped false e1)
       | Once => let '(o, e2) := ideal a lp (enter_plain false e1) in (o, hide e2)
       | Each l => rounds (fun x e2 => let '(o, e3) := ideal a lp (see e2 x) in (o, hide e3)) l e1
       end) = (o, e2) /\ quiet (seen || may_show sources listing n) e2).
    { assert (Heach : forall l e1, exists o e2,
        rounds (fun x e2 => let '(o, e3) := actual a lp (see e2 x) in (o, hide e3)) l e1 = (o, e2) /\
        rounds (fun x e2 => let '(o, e3) := ideal a lp (see e2 x) in (o, hide e3)) l e1 = (o, e2) /\ (e_local e1 = None -> quiet true e2)).
      { induction l as [|x l IHl]; intro e1.
        - eexists _, _. split; [reflexivity|]. split; [reflexivity|]. apply quiet_true.
        - cbn. destruct (inside_same Ha lp (see e1 x)) as [E S]. rewrite <- E. destruct (actual a lp (see e1 x)) as [o e2].
          destruct (IHl (hide e2)) as (o' & e3 & -> & -> & S'). eexists _, _. split; [reflexivity|]. split; [reflexivity|]. intros _. apply S'. reflexivity. }
      assert (Hskip : forall e1, quiet false e1 -> exists o e2, ([], leave_skipped true e1) = (o, e2) /\ ([] : bytes, leave_skipped false e1) = (o, e2) /\ quiet false e2).
      { intros e1 [Q1 Q2]. specialize (Q1 eq_refl). destruct e1 as [g en lo la]. cbn in *. subst. eexists _, _. repeat split. }
      assert (Honce : forall e1, quiet false e1 -> exists o e2, (let '(o, e2) := actual a lp (enter_plain true e1) in (o, hide e2)) = (o, e2) /\
         (let '(o, e2) := ideal a lp (enter_plain false e1) in (o, hide e2)) = (o, e2) /\ quiet false e2).
      { intros e1 [Q1 Q2]. specialize (Q1 eq_refl). assert (Ee : enter_plain true e1 = enter_plain false e1) by (unfold enter_plain; rewrite Q1; reflexivity).
        rewrite Ee. destruct (inside_same Ha lp (enter_plain false e1)) as [E S]. rewrite <- E. destruct (actual a lp (enter_plain false e1)) as [o e2].
        eexists _, _. split; [reflexivity|]. split; [reflexivity|]. destruct S as [S1 S2]. cbn in *. split; [intros _; cbn; congruence|reflexivity]. }
      assert (Hq0 : shows sources listing n = false -> seen = false /\ quiet false e).
      { intro H. rewrite H in Ca. cbn in Ca. destruct seen; [discriminate|]. auto. }
      assert (Hw : forall e2, quiet false e2 -> quiet (seen || may_show sources listing n) e2).
      { intros e2 Q. apply (@quiet_weaken false (seen || may_show sources listing n)) in Q. exact Q. }
      assert (Hsk2 : shows sources listing n = false -> forall e1, same_scope e e1 -> exists o e2, ([], leave_skipped true e1) = (o, e2) /\ ([] : bytes, leave_skipped false e1) = (o, e2) /\ quiet (seen || may_show sources listing n) e2).
      { intros H e1 Sc. destruct (Hskip e1) as (o & e2 & H1 & H2 & H3); [apply (quiet_scope (proj2 (Hq0 H)) Sc)|]. eauto 6. }
      assert (Hon2 : shows sources listing n = false -> exists o e2, (let '(o, e2) := actual a lp (enter_plain true e) in (o, hide e2)) = (o, e2) /\
         (let '(o, e2) := ideal a lp (enter_plain false e) in (o, hide e2)) = (o, e2) /\ quiet (seen || may_show sources listing n) e2).
      { intro H. destruct (Honce e (proj2 (Hq0 H))) as (o & e2 & H1 & H2 & H3). eauto 6. }
      assert (Hea2 : may_show sources listing n = true -> forall l e1, e_local e1 = None -> exists o e2,
        rounds (fun x e2 => let '(o, e3) := actual a lp (see e2 x) in (o, hide e3)) l e1 = (o, e2) /\
        rounds (fun x e2 => let '(o, e3) := ideal a lp (see e2 x) in (o, hide e3)) l e1 = (o, e2) /\ quiet (seen || may_show sources listing n) e2).
      { intros H l e1 El. destruct (Heach l e1) as (o & e2 & H1 & H2 & H3). exists o, e2. split; [exact H1|]. split; [exact H2|]. rewrite H, orb_true_r. auto. }
      assert (Same : same_scope e e) by (split; reflexivity). destruct Hq as [_ Hloc].
      unfold block_action. unfold shows, may_show, shows in *.
      destruct (beq n (B "entry")) eqn:Ne.
      { apply beq_eq in Ne. subst n. destruct listing; [apply Hsk2; [reflexivity|exact Same]|apply Hea2; [reflexivity|exact Hloc]]. }
      destruct (beq n (B "listing")) eqn:Nl.
      { apply beq_eq in Nl. subst n. cbn [orb andb] in *. destruct listing; cbn [andb orb negb] in *; [|apply Hsk2; [reflexivity|exact Same]].
        destruct (Nat.eqb (length sources) 0); cbn [negb andb orb] in *; [apply Hsk2; [reflexivity|exact Same]|apply Hea2; [reflexivity|exact Hloc]]. }
      cbn [orb andb] in *.
      destruct (beq n (B "listing_once")); [destruct listing; [apply Hon2; reflexivity|apply Hsk2; [reflexivity|exact Same]]|].
      destruct (beq n (B "listing_empty")); [destruct (listing && Nat.eqb (length sources) 0); [apply Hon2; reflexivity|apply Hsk2; [reflexivity|exact Same]]|].
      destruct (beq n (B "listing_entry")) eqn:Nle; [|apply Hon2; reflexivity].
      destruct (e_entries e) as [|[x|] r]; [apply Hsk2; [reflexivity|exact Same]| |apply Hsk2; [reflexivity|split; reflexivity]].
      destruct listing; [apply Hea2; [reflexivity|exact Hloc]|apply Hsk2; [reflexivity|split; reflexivity]]. }
    destruct (block_action sources listing n e) as [act e1]. destruct H1 as (o & e2 & -> & -> & S1).
    destruct (IHk f lp _ e2 Hk Ck S1) as [E S]. rewrite <- E. destruct (actual k lp e2). split; [reflexivity|].
    rewrite orb_assoc. exact S.
Qed.

Theorem calm_output t entries config : fits false false t -> calm sources listing false t = true ->
  output convert inject sources listing true t entries config = output convert inject sources listing false t entries config.
Proof.
  intros Hf Hc. unfold output. destruct (@calm_same t false None false (Env config entries None None) Hf Hc) as [E _].
  - split; reflexivity.
  - rewrite E. reflexivity.
Qed.
End Calm.
