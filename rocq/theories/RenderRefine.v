(* The flat, jumping renderer computes the recursive meaning. *)
From Verif Require Import Base Utils UtilsProofs Trie Template Renderer RenderSpec RenderValues.
#[local] Arguments B : simpl never.

(* ---- the skip loops jump over nested statements ---- *)

Lemma skip_if_over we t : forall rest p c,
  skip_if we (flatten t ++ rest) p c = skip_if we rest (p + length (flatten t)) c.
Proof.
  assert (Hcond : forall cd l p c, skip_if we (cond_node cd :: l) p c = skip_if we l (p + 1) (c + 1)) by (intros [v|v|v o d] l p c; reflexivity).
  assert (Hend : forall l p c, skip_if we (closing TEndif :: l) p (c + 1) = skip_if we l (p + 1) c).
  { intros l p c. cbn [skip_if closing n_type]. destruct (Nat.ltb_spec 0 (c + 1)); [|lia]. f_equal. lia. }
  assert (Helse : forall l p c, skip_if we (closing TElse :: l) p (c + 1) = skip_if we l (p + 1) (c + 1)).
  { intros l p c. cbn [skip_if closing n_type]. destruct (Nat.eqb_spec (c + 1) 0); [lia|]. rewrite andb_false_r. reflexivity. }
  induction t as [|x k IHk|v k IHk|cd a IHa k IHk|cd a IHa b IHb k IHk|v a IHa k IHk|n a IHa k IHk]; intros rest p c; cbn [flatten].
  - cbn. f_equal. lia.
  - cbn [app skip_if n_type length]. rewrite IHk. f_equal. lia.
  - cbn [app skip_if n_type length]. rewrite IHk. f_equal. lia.
  - rewrite <- app_comm_cons, <- app_assoc. cbn [app]. rewrite Hcond, IHa, Hend, IHk. cbn [length]. rewrite app_length. cbn [length]. f_equal. lia.
  - rewrite <- app_comm_cons, <- app_assoc. cbn [app]. rewrite <- app_assoc. cbn [app].
    rewrite Hcond, IHa, Helse, IHb, Hend, IHk. cbn [length]. rewrite !app_length. cbn [length]. rewrite app_length. cbn [length]. f_equal. lia.
  - rewrite <- app_comm_cons, <- app_assoc. cbn [app skip_if n_type closing]. rewrite IHa. cbn [skip_if n_type closing]. rewrite IHk.
    cbn [length]. rewrite app_length. cbn [length]. f_equal. lia.
  - rewrite <- app_comm_cons, <- app_assoc. cbn [app skip_if n_type closing]. rewrite IHa. cbn [skip_if n_type closing]. rewrite IHk.
    cbn [length]. rewrite app_length. cbn [length]. f_equal. lia.
Qed.

Lemma skip_block_over b f t : fits b f t -> b = true -> forall rest p,
  skip_to TEndblock (flatten t ++ rest) p = skip_to TEndblock rest (p + length (flatten t)).
Proof.
  assert (Hcond : forall cd l p, skip_to TEndblock (cond_node cd :: l) p = skip_to TEndblock l (p + 1)) by (intros [v|v|v o d] l p; reflexivity).
  revert b f. induction t as [|x k IHk|v k IHk|cd a IHa k IHk|cd a IHa b0 IHb k IHk|v a IHa k IHk|n a IHa k IHk];
    intros b f Hf Hb rest p; cbn [flatten fits] in *.
  - cbn. f_equal. lia.
  - cbn [app skip_to n_type length ntype_eqb]. rewrite (IHk _ _ Hf Hb). f_equal. lia.
  - destruct Hf as [_ Hf]. cbn [app skip_to n_type length ntype_eqb]. rewrite (IHk _ _ Hf Hb). f_equal. lia.
  - destruct Hf as (_ & Ha & Hk). rewrite <- app_comm_cons, <- app_assoc. cbn [app]. rewrite Hcond, (IHa _ _ Ha Hb).
    cbn [skip_to n_type closing ntype_eqb]. rewrite (IHk _ _ Hk Hb). cbn [length]. rewrite app_length. cbn [length]. f_equal. lia.
  - destruct Hf as (_ & Ha & Hb0 & Hk). rewrite <- app_comm_cons, <- app_assoc. cbn [app]. rewrite <- app_assoc. cbn [app]. rewrite Hcond, (IHa _ _ Ha Hb).
    cbn [skip_to n_type closing ntype_eqb]. rewrite (IHb _ _ Hb0 Hb).
    cbn [skip_to n_type closing ntype_eqb]. rewrite (IHk _ _ Hk Hb). cbn [length]. rewrite !app_length. cbn [length]. rewrite app_length. cbn [length]. f_equal. lia.
  - destruct Hf as (_ & Ha & Hk). rewrite <- app_comm_cons, <- app_assoc. cbn [app skip_to n_type closing ntype_eqb]. rewrite (IHa _ _ Ha Hb).
    cbn [skip_to n_type closing ntype_eqb]. rewrite (IHk _ _ Hk Hb). cbn [length]. rewrite app_length. cbn [length]. f_equal. lia.
  - destruct Hf as (Hn & _). congruence.
Qed.

Lemma skip_for_over b f t : fits b f t -> f = true -> forall rest p,
  skip_to TEndforeach (flatten t ++ rest) p = skip_to TEndforeach rest (p + length (flatten t)).
Proof.
  assert (Hcond : forall cd l p, skip_to TEndforeach (cond_node cd :: l) p = skip_to TEndforeach l (p + 1)) by (intros [v|v|v o d] l p; reflexivity).
  revert b f. induction t as [|x k IHk|v k IHk|cd a IHa k IHk|cd a IHa b0 IHb k IHk|v a IHa k IHk|n a IHa k IHk];
    intros b f Hf Hb rest p; cbn [flatten fits] in *.
  - cbn. f_equal. lia.
  - cbn [app skip_to n_type length ntype_eqb]. rewrite (IHk _ _ Hf Hb). f_equal. lia.
  - destruct Hf as [_ Hf]. cbn [app skip_to n_type length ntype_eqb]. rewrite (IHk _ _ Hf Hb). f_equal. lia.
  - destruct Hf as (_ & Ha & Hk). rewrite <- app_comm_cons, <- app_assoc. cbn [app]. rewrite Hcond, (IHa _ _ Ha Hb).
    cbn [skip_to n_type closing ntype_eqb]. rewrite (IHk _ _ Hk Hb). cbn [length]. rewrite app_length. cbn [length]. f_equal. lia.
  - destruct Hf as (_ & Ha & Hb0 & Hk). rewrite <- app_comm_cons, <- app_assoc. cbn [app]. rewrite <- app_assoc. cbn [app]. rewrite Hcond, (IHa _ _ Ha Hb).
    cbn [skip_to n_type closing ntype_eqb]. rewrite (IHb _ _ Hb0 Hb).
    cbn [skip_to n_type closing ntype_eqb]. rewrite (IHk _ _ Hk Hb). cbn [length]. rewrite !app_length. cbn [length]. rewrite app_length. cbn [length]. f_equal. lia.
  - destruct Hf as (Hn & _). congruence.
  - destruct Hf as (_ & Ha & Hk). rewrite <- app_comm_cons, <- app_assoc. cbn [app skip_to n_type closing ntype_eqb]. rewrite (IHa _ _ Ha Hb).
    cbn [skip_to n_type closing ntype_eqb]. rewrite (IHk _ _ Hk Hb). cbn [length]. rewrite app_length. cbn [length]. f_equal. lia.
Qed.

Section Refine.
Variable convert : bytes -> bytes -> option bytes.
Variable funcs : list (bytes * (vars -> vars)).
Variable tmpl : list tnode.
Variable sources : list vars.
Variable listing : bool.
Notation step := (r_step convert funcs tmpl sources listing).
Notation loop := (r_loop convert funcs tmpl sources listing).
Notation inject := (funcvars_eval funcs).
Notation meaning := (meaning convert inject sources listing true).

Inductive steps : rst -> rst -> Prop :=
| StepsRefl s : steps s s
| StepsCons s n s1 s2 : nth_error tmpl (r_pos s) = Some n -> step s n = Ok s1 -> steps s1 s2 -> steps s s2.

Lemma steps_trans s1 s2 s3 : steps s1 s2 -> steps s2 s3 -> steps s1 s3.
Proof. induction 1; eauto using StepsCons. Qed.
Lemma steps_one s n s1 : nth_error tmpl (r_pos s) = Some n -> step s n = Ok s1 -> steps s s1.
Proof. intros. eapply StepsCons; eauto. constructor. Qed.

Lemma steps_loop s s' : steps s s' -> nth_error tmpl (r_pos s') = None -> exists f, loop f s = Ok s'.
Proof.
  induction 1 as [s|s n s1 s2 Hn Hs _ IH]; intro Hend.
  - exists 0. cbn. rewrite Hend. reflexivity.
  - destruct (IH Hend) as (f & Hf). exists (S f). cbn. rewrite Hn. unfold rbind. rewrite Hs. exact Hf.
Qed.

(* ---- states and environments ---- *)

Definition rel (s : rst) (e : env) : Prop :=
  r_global s = e_global e /\ r_entries s = e_entries e /\ r_local s = e_local e /\ r_tmp s = e_last e.
Definition ctx (s : rst) (lp : option (bytes * bytes)) : Prop :=
  match r_for s with
  | None => lp = None
  | Some (_, v, w :: _) => lp = Some (v, w)
  | Some (_, _, []) => False
  end.
Definition outer (s : rst) : Prop := r_lstart s = None /\ (listing = true -> r_cur s = []).

Definition inv (b f : bool) (lp : option (bytes * bytes)) (s : rst) (e : env) : Prop :=
  rel s e /\ r_velse s = false /\ ctx s lp /\ (b = false -> outer s) /\ (f = false -> r_for s = None).

Definition after (b f : bool) (lp : option (bytes * bytes)) (s s' : rst) (len : nat) (o : bytes) (e' : env) : Prop :=
  steps s s' /\ r_pos s' = r_pos s + len /\ r_out s' = r_out s ++ o /\ inv b f lp s' e' /\
  r_for s' = r_for s /\ r_lstart s' = r_lstart s /\ (b = true -> r_cur s' = r_cur s).

Lemma after_trans b f lp s s1 s2 n1 n2 o1 o2 e1 e2 :
  after b f lp s s1 n1 o1 e1 -> after b f lp s1 s2 n2 o2 e2 -> after b f lp s s2 (n1 + n2) (o1 ++ o2) e2.
Proof.
  intros (A1 & A2 & A3 & A4 & A5 & A6 & A7) (B1 & B2 & B3 & B4 & B5 & B6 & B7).
  split; [eapply steps_trans; eauto|]. split; [lia|]. split; [rewrite B3, A3, app_assoc; reflexivity|]. split; [exact B4|].
  split; [congruence|]. split; [congruence|]. intro H. rewrite B7, A7; auto.
Qed.

(* the code at the position of the state *)
Definition at_code (s : rst) (l : list tnode) : Prop := exists post, skipn (r_pos s) tmpl = l ++ post.

Lemma skipn_app_pos p (l post : list tnode) : skipn p tmpl = l ++ post -> skipn (p + length l) tmpl = post.
Proof.
  intro H. assert (G : forall n m (x : list tnode), skipn (n + m) x = skipn m (skipn n x)).
  { induction n as [|n IH]; intros m x; [reflexivity|]. destruct x; [rewrite !skipn_nil; reflexivity|]. cbn. apply IH. }
  rewrite G, H, skipn_app, skipn_all2 by lia. rewrite Nat.sub_diag. reflexivity.
Qed.
Lemma nth_skipn p (n : tnode) l : skipn p tmpl = n :: l -> nth_error tmpl p = Some n.
Proof.
  generalize tmpl. intro x. revert x. induction p as [|p IH]; intros x H; [cbn in H; subst; reflexivity|].
  destruct x; [discriminate|]. apply IH. exact H.
Qed.
Lemma skipn_next p n l : skipn p tmpl = n :: l -> skipn (p + 1) tmpl = l.
Proof. intro H. apply (@skipn_app_pos p [n] l). exact H. Qed.

Lemma rel_var s e lp v : rel s e -> ctx s lp -> v <> [] ->
  exists x g, r_var convert funcs s v = Ok (x, g) /\
    var_in convert inject v lp e = (x, Env g (e_entries e) (e_local e) (e_last e)).
Proof.
  intros (R1 & R2 & R3 & R4) Hc Hv. unfold r_var, var_in.
  assert (E : r_fname s = option_map fst lp /\ r_fitem s = option_map snd lp).
  { unfold ctx, r_fname, r_fitem in *. destruct (r_for s) as [[[p n] [|w ws]]|]; [destruct Hc| |]; subst lp; auto. }
  destruct E as [-> ->]. rewrite format_variable_resolve by assumption. rewrite R1, R3.
  destruct (resolve convert inject v (e_global e) (e_local e) lp) as [x g]. eauto.
Qed.

(* the condition *)
Lemma cond_holds s e lp c : rel s e -> ctx s lp -> cond_ok c ->
  exists b g, eval_cond convert funcs s (cond_node c) = Ok (b, g) /\
    holds convert inject c lp e = (b, Env g (e_entries e) (e_local e) (e_last e)).
Proof.
  intros Hr Hc Hok. destruct c as [v|v|v o d]; cbn [cond_ok] in Hok.
  - destruct (rel_var Hr Hc Hok) as (x & g & E1 & E2). unfold eval_cond, holds, rbind. cbn [cond_node n_d0 n_op n_type]. rewrite E1, E2.
    eexists _, _. split; [reflexivity|]. destruct x; reflexivity.
  - destruct (rel_var Hr Hc Hok) as (x & g & E1 & E2). unfold eval_cond, holds, rbind. cbn [cond_node n_d0 n_op n_type]. rewrite E1, E2.
    eexists _, _. split; [reflexivity|]. destruct x; reflexivity.
  - destruct Hok as (Hv & Hd & Ho). destruct (rel_var Hr Hc Hv) as (x & g & E1 & E2).
    unfold eval_cond, holds, rbind. cbn [cond_node n_d0 n_d1 n_op n_type]. rewrite E1, E2.
    set (e1 := Env g (e_entries e) (e_local e) (e_last e)).
    assert (Hr1 : rel (r_set_out s (r_out s) g) e1) by (destruct Hr as (R1 & R2 & R3 & R4); repeat split; assumption).
    assert (Hc1 : ctx (r_set_out s (r_out s) g) lp) by exact Hc.
    assert (Hd2 : exists y g2, (if Nat.leb 2 (length d) && (nth 0 d NUL == DQ) && (nth (length d - 1) d NUL == DQ)
        then Ok (Some (firstn (length d - 2) (skipn 1 d)), g) else r_var convert funcs (r_set_out s (r_out s) g) d) = Ok (y, g2) /\
        match is_quoted d with Some s0 => (Some s0, e1) | None => var_in convert inject d lp e1 end =
        (y, Env g2 (e_entries e) (e_local e) (e_last e))).
    { pose proof (quoted_operand d) as Hq.
      destruct (Nat.leb 2 (length d) && (nth 0 d NUL == DQ) && (nth (length d - 1) d NUL == DQ)).
      - rewrite <- Hq. eexists _, _. split; reflexivity.
      - rewrite <- Hq. destruct (rel_var Hr1 Hc1 Hd) as (y & g2 & F1 & F2). exists y, g2. split; [exact F1|]. exact F2. }
    destruct Hd2 as (y & g2 & F1 & F2). rewrite F2.
    destruct o; [congruence|..]; rewrite F1; eexists _, _; (split; [reflexivity|]); destruct x as [x|], y as [y|]; try reflexivity;
      rewrite op_holds_compare by congruence; reflexivity.
Qed.

Lemma inv_env b f lp s e : inv b f lp s e -> rel s e. Proof. intros H. apply H. Qed.

(* statements that only move on *)
Lemma after_simple b f lp s e n o g :
  inv b f lp s e -> nth_error tmpl (r_pos s) = Some n ->
  step s n = Ok (next (r_set_out s (r_out s ++ o) g)) ->
  after b f lp s (next (r_set_out s (r_out s ++ o) g)) 1 o (Env g (e_entries e) (e_local e) (e_last e)).
Proof.
  intros (Hr & Hv & Hc & Ho & Hf) Hn Hs. split; [eapply steps_one; eauto|]. repeat split; auto; cbn; try apply Hr.
  all: apply Ho; assumption.
Qed.

Lemma listing_true_eq : listing = true \/ listing = false. Proof. destruct listing; auto. Qed.

Definition runs (t : prog) : Prop := forall b f lp s e, fits b f t -> at_code s (flatten t) -> inv b f lp s e ->
  exists s', after b f lp s s' (length (flatten t)) (fst (meaning t lp e)) (snd (meaning t lp e)).

(* one statement, then the rest *)
Lemma then_rest b f lp s len o e1 s1 k total res : runs k -> fits b f k ->
  after b f lp s s1 len o e1 ->
  (exists post, skipn (r_pos s + len) tmpl = flatten k ++ post) ->
  total = len + length (flatten k) ->
  res = (let '(o2, e2) := meaning k lp e1 in (o ++ o2, e2)) ->
  exists s', after b f lp s s' total (fst res) (snd res).
Proof.
  intros Hk Hf Ha (post & Hp) -> ->.
  destruct (Hk b f lp s1 e1 Hf) as (s2 & H2).
  - exists post. destruct Ha as (_ & -> & _). exact Hp.
  - apply Ha.
  - exists s2. pose proof (after_trans Ha H2) as H. destruct (meaning k lp e1) as [o2 e2]. exact H.
Qed.

(* ---- loops ---- *)

Section Loop.
Variables (b : bool) (v : bytes) (a : prog) (p : nat) (post : list tnode).
Hypothesis Ha : runs a.
Hypothesis Hfit : fits b true a.
Hypothesis Hcode : skipn p tmpl = Node TForeach ONone (Some v) None :: flatten a ++ closing TEndforeach :: post.

Lemma code_body : skipn (p + 1) tmpl = flatten a ++ closing TEndforeach :: post.
Proof. apply (skipn_next Hcode). Qed.
Lemma code_end : skipn (p + 1 + length (flatten a)) tmpl = closing TEndforeach :: post.
Proof. apply skipn_app_pos. apply code_body. Qed.

Lemma loop_rounds ws : forall w s e, r_pos s = p + 1 -> r_for s = Some (p, v, w :: ws) -> rel s e -> r_velse s = false ->
  (b = false -> outer s) ->
  exists s', steps s s' /\ r_pos s' = p + 1 + length (flatten a) + 1 /\
    r_out s' = r_out s ++ fst (rounds (fun w => meaning a (Some (v, w))) (w :: ws) e) /\
    rel s' (snd (rounds (fun w => meaning a (Some (v, w))) (w :: ws) e)) /\ r_velse s' = false /\
    r_for s' = None /\ r_lstart s' = r_lstart s /\ (b = true -> r_cur s' = r_cur s) /\ (b = false -> outer s').
Proof.
  induction ws as [|w' ws IH]; intros w s e Hp Hf Hr Hve Ho.
  - destruct (@Ha b true (Some (v, w)) s e Hfit) as (s1 & A1 & A2 & A3 & (I1 & I2 & I3 & I4 & I5) & A5 & A6 & A7).
    { eexists. rewrite Hp. apply code_body. }
    { split; [exact Hr|]. split; [exact Hve|]. split; [unfold ctx; rewrite Hf; reflexivity|]. split; [exact Ho|discriminate]. }
    cbn [rounds]. destruct (meaning a (Some (v, w)) e) as [o1 e1]. cbn [fst snd] in *. rewrite app_nil_r.
    rewrite Hp in A2. pose proof code_end as Hce. rewrite <- A2 in Hce.
    exists (next (r_set_for s1 None)). split; [eapply steps_trans; [exact A1|]; eapply steps_one; [apply (nth_skipn Hce)|]|].
    { cbn. unfold step_endforeach. rewrite A5, Hf. reflexivity. }
    cbn. rewrite A2. repeat split; auto; try apply I1.
    all: apply I4; assumption.
  - destruct (@Ha b true (Some (v, w)) s e Hfit) as (s1 & A1 & A2 & A3 & (I1 & I2 & I3 & I4 & I5) & A5 & A6 & A7).
    { eexists. rewrite Hp. apply code_body. }
    { split; [exact Hr|]. split; [exact Hve|]. split; [unfold ctx; rewrite Hf; reflexivity|]. split; [exact Ho|discriminate]. }
    rewrite Hp in A2. pose proof code_end as Hce. rewrite <- A2 in Hce.
    set (s2 := r_set_pos (r_set_for s1 (Some (p, v, w' :: ws))) p).
    assert (S2 : steps s1 s2).
    { eapply steps_one; [apply (nth_skipn Hce)|]. cbn. unfold step_endforeach. rewrite A5, Hf. reflexivity. }
    assert (S3 : steps s2 (next s2)).
    { eapply steps_one; [apply (@nth_skipn (r_pos s2) _ _ Hcode)|]. reflexivity. }
    change (rounds (fun w => meaning a (Some (v, w))) (w :: w' :: ws) e) with
      (let '(o, e1) := meaning a (Some (v, w)) e in
       let '(o', e2) := rounds (fun w => meaning a (Some (v, w))) (w' :: ws) e1 in (o ++ o', e2)).
    destruct (meaning a (Some (v, w)) e) as [o1 e1]. cbn [fst snd] in *.
    destruct (IH w' (next s2) e1) as (s' & B1 & B2 & B3 & B4 & B5 & B6 & B7 & B8 & B9); auto.
    exists s'. destruct (rounds (fun w0 => meaning a (Some (v, w0))) (w' :: ws) e1) as [o2 e2]. cbn [fst snd] in *.
    split; [eapply steps_trans; [exact A1|]; eapply steps_trans; [exact S2|]; eapply steps_trans; [exact S3|exact B1]|].
    split; [exact B2|]. split; [rewrite B3; cbn; rewrite A3, app_assoc; reflexivity|]. split; [exact B4|]. split; [exact B5|].
    split; [exact B6|]. split; [rewrite B7; cbn; exact A6|]. split; [intro H; rewrite (B8 H); cbn; auto|exact B9].
Qed.
End Loop.

(* ---- blocks ---- *)

Definition block_body (a : prog) (lp : option (bytes * bytes)) (x : option (trie bytes)) (e : env) : bytes * env :=
  let '(o, e) := meaning a lp (see e x) in (o, hide e).

Section Block.
Variables (f : bool) (name : bytes) (a : prog) (p : nat) (post : list tnode) (lp : option (bytes * bytes)).
Hypothesis Ha : runs a.
Hypothesis Hfit : fits true f a.
Hypothesis Hcode : skipn p tmpl = Node TBlock ONone (Some name) None :: flatten a ++ closing TEndblock :: post.

Lemma bcode_body : skipn (p + 1) tmpl = flatten a ++ closing TEndblock :: post.
Proof. apply (skipn_next Hcode). Qed.
Lemma bcode_end : skipn (p + 1 + length (flatten a)) tmpl = closing TEndblock :: post.
Proof. apply skipn_app_pos. apply bcode_body. Qed.

(* a body that is executed once *)
Lemma block_once s e : r_pos s = p + 1 -> rel s e -> r_velse s = false -> ctx s lp -> (f = false -> r_for s = None) ->
  r_lstart s = None -> (listing = true -> r_cur s = []) ->
  exists s', steps s s' /\ r_pos s' = p + 1 + length (flatten a) + 1 /\
    r_out s' = r_out s ++ fst (meaning a lp e) /\ inv false f lp s' (hide (snd (meaning a lp e))) /\
    r_for s' = r_for s /\ r_lstart s' = None.
Proof.
  intros Hp Hr Hve Hc Hf Hl Hcur.
  destruct (@Ha true f lp s e Hfit) as (s1 & A1 & A2 & A3 & (I1 & I2 & I3 & I4 & I5) & A5 & A6 & A7).
  { eexists. rewrite Hp. apply bcode_body. }
  { repeat split; auto; try apply Hr; discriminate. }
  rewrite Hp in A2. pose proof bcode_end as Hce. rewrite <- A2 in Hce.
  exists (next (r_set_in s1 false)). split; [eapply steps_trans; [exact A1|]; eapply steps_one; [apply (nth_skipn Hce)|]|].
  { cbn. unfold step_endblock. cbn. rewrite A6, Hl. reflexivity. }
  cbn. split; [rewrite A2; reflexivity|]. split; [exact A3|]. destruct I1 as (R1 & R2 & R3 & R4).
  split; [repeat split; auto|split; [exact A5|congruence]].
  - cbn. congruence.
  - cbn. intro Hl1. rewrite A7; auto.
Qed.

(* once for each source *)
Lemma block_listing (Hl : listing = true) (Hname : name = B "listing") (Hsrc : sources <> []) cs : forall c s e, r_pos s = p + 1 ->
  r_lstart s = Some p -> r_cur s = c :: cs ->
  (exists e0, rel s (see e0 (Some c)) /\ e_global e0 = e_global e /\ e_entries e0 = e_entries e) ->
  r_velse s = false -> ctx s lp -> (f = false -> r_for s = None) ->
  exists s', steps s s' /\ r_pos s' = p + 1 + length (flatten a) + 1 /\
    r_out s' = r_out s ++ fst (rounds (block_body a lp) (map Some (c :: cs)) e) /\
    inv false f lp s' (snd (rounds (block_body a lp) (map Some (c :: cs)) e)) /\
    r_for s' = r_for s /\ r_lstart s' = None.
Proof.
  induction cs as [|c' cs IH]; intros c s e Hp Hls Hcur (e0 & Hr & Eg & Ee) Hve Hc Hf;
    assert (Esee : see e0 (Some c) = see e (Some c)) by (unfold see; rewrite Eg, Ee; reflexivity); rewrite Esee in Hr;
    (destruct (@Ha true f lp s (see e (Some c)) Hfit) as (s1 & A1 & A2 & A3 & (I1 & I2 & I3 & I4 & I5) & A5 & A6 & A7);
     [eexists; rewrite Hp; apply bcode_body|repeat split; auto; try apply Hr; discriminate|]);
    rewrite Hp in A2; pose proof bcode_end as Hce; rewrite <- A2 in Hce; specialize (A7 eq_refl);
    destruct I1 as (R1 & R2 & R3 & R4).
  - cbn [map rounds]. unfold block_body at 1 2. destruct (meaning a lp (see e (Some c))) as [o1 e1]. cbn [fst snd] in *. rewrite app_nil_r.
    exists (next (r_set_src (r_set_in s1 false) [] None (r_tmp s1))).
    split; [eapply steps_trans; [exact A1|]; eapply steps_one; [apply (nth_skipn Hce)|]|].
    { cbn. unfold step_endblock. cbn. rewrite A6, Hls, A7, Hcur. reflexivity. }
    cbn. split; [rewrite A2; reflexivity|]. split; [exact A3|].
    repeat split; auto; cbn; congruence.
  - set (s2 := r_set_pos (r_set_src (r_set_in s1 false) (c' :: cs) (Some p) (r_tmp s1)) p).
    assert (S2 : steps s1 s2).
    { eapply steps_one; [apply (nth_skipn Hce)|]. cbn. unfold step_endblock. cbn. rewrite A6, Hls, A7, Hcur. reflexivity. }
    set (s3 := next (r_set_src (r_set_in (r_set_if s2 0 (r_velse s2)) true) (c' :: cs) (Some p) (Some c'))).
    assert (S3 : steps s2 s3).
    { eapply steps_one; [apply (@nth_skipn (r_pos s2) _ _ Hcode)|]. cbn. unfold step_block. subst name. cbn.
      rewrite Hl. destruct sources; [congruence|]. reflexivity. }
    change (rounds (block_body a lp) (map Some (c :: c' :: cs)) e) with
      (let '(o, e1) := block_body a lp (Some c) e in
       let '(o', e2) := rounds (block_body a lp) (map Some (c' :: cs)) e1 in (o ++ o', e2)).
    unfold block_body at 1 3. destruct (meaning a lp (see e (Some c))) as [o1 e1]. cbn [fst snd] in *.
    destruct (IH c' s3 (hide e1)) as (s' & B1 & B2 & B3 & B4 & B5 & B6); auto.
    { exists e1. repeat split; auto. }
    exists s'. destruct (rounds (block_body a lp) (map Some (c' :: cs)) (hide e1)) as [o2 e2]. cbn [fst snd] in *.
    split; [eapply steps_trans; [exact A1|]; eapply steps_trans; [exact S2|]; eapply steps_trans; [exact S3|exact B1]|].
    split; [exact B2|]. split; [rewrite B3; cbn; rewrite A3, app_assoc; reflexivity|]. split; [exact B4|].
    split; [rewrite B5; exact A5|exact B6].
Qed.
End Block.

(* ---- everything ---- *)

Theorem runs_all t : runs t.
Proof.
  induction t as [|x k IHk|v k IHk|c a IHa k IHk|c a IHa a' IHa' k IHk|v a IHa k IHk|n a IHa k IHk];
    intros b f lp s e Hfit (post & Hcode) Hinv; cbn [fits] in Hfit; cbn [flatten] in Hcode.
  - exists s. cbn. split; [constructor|]. split; [lia|]. split; [symmetry; apply app_nil_r|]. auto.
  - pose proof (nth_skipn Hcode) as Hn.
    assert (Hs : after b f lp s (next (r_set_out s (r_out s ++ x) (r_global s))) 1 x e).
    { pose proof (@after_simple b f lp s e _ x (r_global s) Hinv Hn eq_refl) as H.
      replace (Env (r_global s) (e_entries e) (e_local e) (e_last e)) with e in H; [exact H|].
      destruct Hinv as ((-> & _) & _). destruct e; reflexivity. }
    eapply (then_rest IHk Hfit Hs); [exists post; apply (skipn_next Hcode)|reflexivity|].
    cbn. destruct (meaning k lp e). reflexivity.
  - destruct Hfit as [Hv Hfit]. pose proof (nth_skipn Hcode) as Hn.
    assert (Hctx : ctx s lp) by apply Hinv.
    destruct (rel_var (inv_env Hinv) Hctx Hv) as (x & g & E1 & E2).
    assert (Hs : after b f lp s (next (r_set_out s (r_out s ++ match x with Some x => x | None => [] end) g)) 1
      match x with Some x => x | None => [] end (Env g (e_entries e) (e_local e) (e_last e))).
    { apply (after_simple Hinv Hn). cbn. unfold rbind. rewrite E1. reflexivity. }
    eapply (then_rest IHk Hfit Hs); [exists post; apply (skipn_next Hcode)|reflexivity|].
    cbn. rewrite E2. reflexivity.
  - (* if without else *)
    destruct Hfit as (Hok & Hfa & Hfk). cbn [app] in Hcode. rewrite <- app_assoc in Hcode. cbn [app] in Hcode.
    pose proof (nth_skipn Hcode) as Hn. pose proof Hinv as (Hr & Hve & Hc & Ho & Hff).
    set (s0 := r_set_if s 0 (r_velse s)).
    destruct (@cond_holds s0 e lp c Hr Hc Hok) as (tv & g & E1 & E2).
    set (e1 := Env g (e_entries e) (e_local e) (e_last e)) in *.
    assert (Hstep : step s (cond_node c) = step_if convert funcs tmpl s (cond_node c)) by (destruct c; reflexivity).
    set (len := 1 + length (flatten a) + 1).
    assert (Hk : skipn (r_pos s + len) tmpl = flatten k ++ post).
    { pose proof (skipn_next Hcode) as H1. apply skipn_app_pos in H1. apply skipn_next in H1.
      rewrite <- H1. f_equal. unfold len. lia. }
    assert (Hs : exists s1, after b f lp s s1 len (if tv then fst (meaning a lp e1) else []) (if tv then snd (meaning a lp e1) else e1)).
    { destruct tv.
      - set (s1 := next (r_set_if (r_set_out s0 (r_out s0) g) 0 false)).
        assert (S1 : steps s s1).
        { eapply steps_one; [exact Hn|]. rewrite Hstep. unfold step_if, rbind. fold s0. rewrite E1. reflexivity. }
        destruct (IHa b f lp s1 e1 Hfa) as (s2 & A1 & A2 & A3 & A4 & A5 & A6 & A7).
        { eexists. apply (skipn_next Hcode). }
        { repeat split; auto; try apply Hr; apply Ho; assumption. }
        exists (next (r_set_if s2 (r_ifc s2 - 1) false)).
        split; [|]. 
        { eapply steps_trans; [exact S1|]. eapply steps_trans; [exact A1|]. apply (@steps_one _ (closing TEndif)); [|reflexivity].
          rewrite A2. cbn. pose proof (skipn_next Hcode) as H1. apply skipn_app_pos in H1. apply (nth_skipn H1). }
        destruct A4 as (I1 & I2 & I3 & I4 & I5).
        split; [cbn; rewrite A2; cbn; unfold len; lia|]. split; [exact A3|].
        split; [repeat split; auto; try apply I1; apply I4; assumption|]. repeat split; auto.
      - exists (r_set_pos (r_set_if (r_set_out s0 (r_out s0) g) 0 (r_velse s)) (r_pos s + len)).
        assert (Hsk : skip_if true (skipn (r_pos s + 1) tmpl) (r_pos s + 1) 0 = Ok (r_pos s + 1 + length (flatten a), 0, false)).
        { rewrite (skipn_next Hcode), skip_if_over. reflexivity. }
        split; [eapply steps_one; [exact Hn|]; rewrite Hstep; unfold step_if, rbind; fold s0; rewrite E1; cbn [r_pos r_set_out r_ifc s0 r_set_if]; rewrite Hsk; cbn; do 2 f_equal; unfold len; lia|].
        cbn. rewrite app_nil_r. repeat split; auto; try apply Hr; apply Ho; assumption. }
    destruct Hs as (s1 & Hs). eapply (then_rest IHk Hfk Hs); [exists post; exact Hk| |].
    + cbn [flatten length]. rewrite app_length. cbn [length]. unfold len. lia.
    + cbn [RenderSpec.meaning]. rewrite E2. fold e1. destruct tv; [destruct (meaning a lp e1)|]; reflexivity.
  - (* if with else *)
    destruct Hfit as (Hok & Hfa & Hfa' & Hfk). cbn [app] in Hcode. rewrite <- app_assoc in Hcode. cbn [app] in Hcode.
    rewrite <- app_assoc in Hcode. cbn [app] in Hcode.
    pose proof (nth_skipn Hcode) as Hn. pose proof Hinv as (Hr & Hve & Hc & Ho & Hff).
    set (s0 := r_set_if s 0 (r_velse s)).
    destruct (@cond_holds s0 e lp c Hr Hc Hok) as (tv & g & E1 & E2).
    set (e1 := Env g (e_entries e) (e_local e) (e_last e)) in *.
    assert (Hstep : step s (cond_node c) = step_if convert funcs tmpl s (cond_node c)) by (destruct c; reflexivity).
    set (len := 1 + length (flatten a) + 1 + length (flatten a') + 1).
    pose proof (skipn_next Hcode) as C1. pose proof (skipn_app_pos C1) as C2. pose proof (skipn_next C2) as C3.
    pose proof (skipn_app_pos C3) as C4. pose proof (skipn_next C4) as C5.
    assert (Hk : skipn (r_pos s + len) tmpl = flatten k ++ post).
    { rewrite <- C5. f_equal. unfold len. lia. }
    assert (Hs : exists s1, after b f lp s s1 len (if tv then fst (meaning a lp e1) else fst (meaning a' lp e1))
                              (if tv then snd (meaning a lp e1) else snd (meaning a' lp e1))).
    { destruct tv.
      - set (s1 := next (r_set_if (r_set_out s0 (r_out s0) g) 0 false)).
        assert (S1 : steps s s1).
        { eapply steps_one; [exact Hn|]. rewrite Hstep. unfold step_if, rbind. fold s0. rewrite E1. reflexivity. }
        destruct (IHa b f lp s1 e1 Hfa) as (s2 & A1 & A2 & A3 & A4 & A5 & A6 & A7).
        { eexists. exact C1. }
        { repeat split; auto; try apply Hr; apply Ho; assumption. }
        destruct A4 as (I1 & I2 & I3 & I4 & I5).
        assert (P2 : r_pos s2 = r_pos s + 1 + length (flatten a)) by exact A2.
        assert (Hsk : skip_if false (skipn (r_pos s2 + 1) tmpl) (r_pos s2 + 1) 0 = Ok (r_pos s2 + 1 + length (flatten a'), 0, false)).
        { rewrite P2, C3, skip_if_over. reflexivity. }
        exists (r_set_pos (r_set_if (r_set_if s2 0 (r_velse s2)) 0 false) (r_pos s + len)).
        split.
        { eapply steps_trans; [exact S1|]. eapply steps_trans; [exact A1|]. eapply steps_one.
          - rewrite P2. apply (nth_skipn C2).
          - cbn [r_step closing n_type]. unfold step_else, rbind. cbn [r_velse r_set_if r_pos]. rewrite I2, Hsk. do 2 f_equal. rewrite P2. unfold len. lia. }
        split; [reflexivity|]. split; [exact A3|].
        split; [repeat split; auto; try apply I1; apply I4; assumption|]. repeat split; auto.
      - assert (Hsk : skip_if true (skipn (r_pos s + 1) tmpl) (r_pos s + 1) 0 = Ok (r_pos s + 1 + length (flatten a), 0, true)).
        { rewrite C1, skip_if_over. reflexivity. }
        set (s1 := r_set_pos (r_set_if (r_set_out s0 (r_out s0) g) 0 true) (r_pos s + 1 + length (flatten a))).
        assert (S1 : steps s s1).
        { eapply steps_one; [exact Hn|]; rewrite Hstep; unfold step_if, rbind; fold s0; rewrite E1; cbn [r_pos r_set_out r_ifc s0 r_set_if]; rewrite Hsk; reflexivity. }
        set (s2 := next (r_set_if (r_set_if s1 0 (r_velse s1)) 0 false)).
        assert (S2 : steps s1 s2) by (eapply steps_one; [apply (nth_skipn C2)|reflexivity]).
        destruct (IHa' b f lp s2 e1 Hfa') as (s3 & A1 & A2 & A3 & A4 & A5 & A6 & A7).
        { eexists. exact C3. }
        { repeat split; auto; try apply Hr; apply Ho; assumption. }
        destruct A4 as (I1 & I2 & I3 & I4 & I5).
        exists (next (r_set_if s3 (r_ifc s3 - 1) false)). split.
        { eapply steps_trans; [exact S1|]. eapply steps_trans; [exact S2|]. eapply steps_trans; [exact A1|]. apply (@steps_one _ (closing TEndif)); [|reflexivity].
          rewrite A2. apply (nth_skipn C4). }
        split; [cbn; rewrite A2; cbn; unfold len; lia|]. split; [exact A3|].
        split; [repeat split; auto; try apply I1; apply I4; assumption|]. repeat split; auto. }
    destruct Hs as (s1 & Hs). eapply (then_rest IHk Hfk Hs); [exists post; exact Hk| |].
    + cbn [flatten length]. rewrite !app_length. cbn [length]. rewrite app_length. cbn [length]. unfold len. lia.
    + cbn [RenderSpec.meaning]. rewrite E2. fold e1. destruct tv; [destruct (meaning a lp e1)|destruct (meaning a' lp e1)]; reflexivity.
  - (* foreach *)
    destruct Hfit as (-> & Hfa & Hfk). cbn [app] in Hcode. rewrite <- app_assoc in Hcode. cbn [app] in Hcode.
    pose proof (nth_skipn Hcode) as Hn. pose proof Hinv as (Hr & Hve & Hc & Ho & Hff). specialize (Hff eq_refl).
    pose proof (skipn_next Hcode) as C1. pose proof (skipn_app_pos C1) as C2. pose proof (skipn_next C2) as C3.
    set (len := 1 + length (flatten a) + 1).
    assert (Hk : skipn (r_pos s + len) tmpl = flatten k ++ post).
    { rewrite <- C3. f_equal. unfold len. lia. }
    assert (Elp : lp = None) by (unfold ctx in Hc; rewrite Hff in Hc; exact Hc). subst lp.
    set (items := match lookup v (e_global e) (e_local e) with Some s => words s | None => [] end).
    assert (Hsl : split_list_variable v (r_global s) (r_local s) = items).
    { rewrite split_list_words. destruct Hr as (-> & _ & -> & _). reflexivity. }
    assert (Hs : exists s1, after b false None s s1 len (fst (rounds (fun w => meaning a (Some (v, w))) items e))
                              (snd (rounds (fun w => meaning a (Some (v, w))) items e))).
    { destruct items as [|w ws] eqn:Ei.
      - exists (r_set_pos s (r_pos s + len)).
        split; [eapply steps_one; [exact Hn|]|].
        { cbn [r_step n_type]. unfold step_foreach, rbind. rewrite Hff. cbn [n_d0]. rewrite Hsl.
          rewrite Hcode. cbn [skip_to n_type ntype_eqb]. rewrite (skip_for_over Hfa eq_refl). cbn. do 2 f_equal. unfold len. lia. }
        cbn. rewrite app_nil_r. repeat split; auto; try apply Hr; apply Ho; assumption.
      - set (s1 := next (r_set_for s (Some (r_pos s, v, w :: ws)))).
        assert (S1 : steps s s1).
        { eapply steps_one; [exact Hn|]. cbn [r_step n_type]. unfold step_foreach, rbind. rewrite Hff. cbn [n_d0]. rewrite Hsl. reflexivity. }
        destruct (@loop_rounds b v a (r_pos s) (flatten k ++ post) IHa Hfa Hcode ws w s1 e) as (s2 & B1 & B2 & B3 & B4 & B5 & B6 & B7 & B8 & B9); auto.
        exists s2. split; [eapply steps_trans; [exact S1|exact B1]|]. split; [rewrite B2; unfold len; lia|]. split; [exact B3|].
        split; [split; [exact B4|split; [exact B5|split; [unfold ctx; rewrite B6; reflexivity|split; [exact B9|auto]]]]|].
        split; [congruence|]. split; [exact B7|exact B8]. }
    destruct Hs as (s1 & Hs). eapply (then_rest IHk Hfk Hs); [exists post; exact Hk| |].
    + cbn [flatten length]. rewrite app_length. cbn [length]. unfold len. lia.
    + cbn [RenderSpec.meaning]. fold items. destruct (rounds (fun w => meaning a (Some (v, w))) items e). reflexivity.
  - (* block *)
    destruct Hfit as (-> & Hfa & Hfk). cbn [app] in Hcode. rewrite <- app_assoc in Hcode. cbn [app] in Hcode.
    pose proof (nth_skipn Hcode) as Hn. pose proof Hinv as (Hr & Hve & Hc & Ho & Hff). destruct (Ho eq_refl) as [Hls Hcur].
    pose proof (skipn_next Hcode) as C1. pose proof (skipn_app_pos C1) as C2. pose proof (skipn_next C2) as C3.
    set (len := 1 + length (flatten a) + 1).
    assert (Hk : skipn (r_pos s + len) tmpl = flatten k ++ post).
    { rewrite <- C3. f_equal. unfold len. lia. }
    pose proof Hr as (R1 & R2 & R3 & R4).
    assert (Hskip : forall s1 e1, r_pos s1 = r_pos s -> r_in s1 = true -> r_tmp s1 = e_last e1 -> r_global s1 = e_global e1 ->
        r_entries s1 = e_entries e1 -> r_velse s1 = false -> r_for s1 = r_for s -> r_lstart s1 = r_lstart s -> r_cur s1 = r_cur s ->
        r_out s1 = r_out s -> step s (Node TBlock ONone (Some n) None) = skip_block tmpl s1 ->
        exists s2, after false f lp s s2 len [] (leave_skipped true e1)).
    { intros s1 e1 Q0 Q1 Q2 Q3 Q4 Q5 Q6 Q7 Q8 Q9 Hst. exists (r_set_pos s1 (r_pos s + len)).
      split; [eapply steps_one; [exact Hn|]; rewrite Hst|].
      { unfold skip_block, rbind. rewrite Q0, Hcode. cbn [skip_to n_type ntype_eqb]. rewrite (skip_block_over Hfa eq_refl). cbn.
        do 2 f_equal. unfold len. lia. }
      cbn. rewrite app_nil_r. unfold inv, rel, ctx, outer, r_local. cbn. rewrite Q1, Q2, Q3, Q4, Q5, Q6, Q7, Q8, Q9.
      repeat split; auto. }
    assert (Honce : forall s1 e1, r_pos s1 = r_pos s + 1 -> rel s1 e1 -> r_velse s1 = false -> r_for s1 = r_for s -> r_lstart s1 = None ->
        (listing = true -> r_cur s1 = []) -> r_out s1 = r_out s -> steps s s1 ->
        exists s2, after false f lp s s2 len (fst (meaning a lp e1)) (hide (snd (meaning a lp e1)))).
    { intros s1 e1 Q0 Q1 Q2 Q3 Q4 Q5 Q6 Hst.
      destruct (@block_once f n a (r_pos s) (flatten k ++ post) lp IHa Hfa Hcode s1 e1) as (s2 & B1 & B2 & B3 & B4 & B5 & B6); auto.
      { unfold ctx in *. rewrite Q3. exact Hc. }
      { intro H. rewrite Q3. auto. }
      exists s2. split; [eapply steps_trans; eauto|]. split; [rewrite B2; unfold len; lia|]. split; [rewrite B3, Q6; reflexivity|].
      split; [exact B4|]. split; [congruence|]. split; [congruence|discriminate]. }
    assert (Hs : exists s1, after false f lp s s1 len
       (fst (let '(act, e) := block_action sources listing n e in
             match act with
             | Skip => ([], leave_skipped true e)
             | Once => let '(o, e) := meaning a lp (enter_plain true e) in (o, hide e)
             | Each l => rounds (block_body a lp) l e
             end))
       (snd (let '(act, e) := block_action sources listing n e in
             match act with
             | Skip => ([], leave_skipped true e)
             | Once => let '(o, e) := meaning a lp (enter_plain true e) in (o, hide e)
             | Each l => rounds (block_body a lp) l e
             end))).
    { assert (Hplain : step s (Node TBlock ONone (Some n) None) = Ok (next (r_set_in (r_set_if s 0 (r_velse s)) true)) ->
        exists s1, after false f lp s s1 len (fst (let '(o, e) := meaning a lp (enter_plain true e) in (o, hide e)))
          (snd (let '(o, e) := meaning a lp (enter_plain true e) in (o, hide e)))).
      { intro Hst. destruct (Honce (next (r_set_in (r_set_if s 0 (r_velse s)) true)) (enter_plain true e)) as (s1 & H1); auto.
        { repeat split; auto. }
        { eapply steps_one; [exact Hn|exact Hst]. }
        exists s1. destruct (meaning a lp (enter_plain true e)). exact H1. }
      assert (HM : exists M, M = meaning /\ forall x e, block_body a lp x e = let '(o, e) := M a lp (see e x) in (o, hide e))
        by (eexists; split; [reflexivity|reflexivity]).
      destruct HM as (M & HM & HB). rewrite <- HM in *. clear HM.
      unfold block_action. change (@length (trie bytes) sources) with (@length vars sources). cbn [r_step n_type n_d0] in Hskip, Hplain. unfold step_block in Hskip, Hplain.
      destruct (beq n (B "entry")) eqn:Ne.
      { destruct listing eqn:El.
        - cbn. eapply Hskip; [..|reflexivity]; auto.
        - destruct (Honce (next (r_set_src (r_set_in (r_set_if s 0 (r_velse s)) true) sources (r_lstart s) (hd_opt sources)))
                     (see e (hd_opt sources))) as (s1 & H1); auto; try discriminate.
          { repeat split; auto. }
          { eapply steps_one; [exact Hn|]. cbn [r_step n_type n_d0]. unfold step_block. rewrite Ne, El. reflexivity. }
          exists s1. cbn [rounds]. rewrite HB. match goal with |- context [M a lp ?X] => change X with (see e (hd_opt sources)) end.
          destruct (M a lp (see e (hd_opt sources))) as [o1 e1]. cbn [fst snd] in *. rewrite app_nil_r. exact H1. }
      destruct (beq n (B "listing_entry")) eqn:Nle.
      { apply beq_eq in Nle. subst n.
        let r := eval vm_compute in (beq (B "listing_entry") (B "listing")) in change (beq (B "listing_entry") (B "listing")) with r.
        let r := eval vm_compute in (beq (B "listing_entry") (B "listing_once")) in change (beq (B "listing_entry") (B "listing_once")) with r.
        let r := eval vm_compute in (beq (B "listing_entry") (B "listing_empty")) in change (beq (B "listing_entry") (B "listing_empty")) with r.
        let r := eval vm_compute in (beq (B "listing_entry") (B "listing_entry")) in change (beq (B "listing_entry") (B "listing_entry")) with r.
        cbv iota. rewrite <- R2.
        cbn [r_entries r_set_in r_set_if r_lstart] in Hskip, Hplain.
        destruct (r_entries s) as [|[x|] rest] eqn:Een.
        - eapply Hskip; [..|reflexivity]; auto. cbn. congruence.
        - destruct listing eqn:El.
          + destruct (Honce (next (r_set_src (r_set_entries (r_set_in (r_set_if s 0 (r_velse s)) true) rest) [] (r_lstart s) (Some x)))
                       (see (Env (e_global e) rest (e_local e) (e_last e)) (Some x))) as (s1 & H1); auto.
            { repeat split; auto. }
            { eapply steps_one; [exact Hn|]. cbn [r_step n_type n_d0]. unfold step_block. rewrite Ne. 
              let r := eval vm_compute in (beq (B "listing_entry") (B "listing_entry")) in change (beq (B "listing_entry") (B "listing_entry")) with r.
              cbv iota. cbn [r_entries r_set_in r_set_if]. rewrite Een, El. reflexivity. }
            exists s1. cbn [rounds]. rewrite HB.
            match goal with |- context [M a lp ?X] => match type of H1 with context [M a lp ?Y] => change X with Y; destruct (M a lp Y) as [o1 e1] end end. cbn [fst snd] in *. rewrite app_nil_r. exact H1.
          + eapply (Hskip (r_set_entries (r_set_in (r_set_if s 0 (r_velse s)) true) rest)); [..|reflexivity]; auto.
        - eapply (Hskip (r_set_entries (r_set_in (r_set_if s 0 (r_velse s)) true) rest)); [..|reflexivity]; auto. }
      destruct (beq n (B "listing")) eqn:Nl.
      { apply beq_eq in Nl. subst n. cbn [orb] in *.
        destruct listing eqn:El; cbn [negb andb].
        2:{ cbn [negb] in Hskip. eapply Hskip; [..|reflexivity]; auto. }
        let r := eval vm_compute in (beq (B "listing") (B "listing_empty")) in change (beq (B "listing") (B "listing_empty")) with r in Hskip.
        cbn [negb] in Hskip.
        destruct (Nat.eqb_spec (length sources) 0) as [Es|Es]; cbn [negb].
        - assert (Es' : sources = []) by (destruct sources; [reflexivity|discriminate]). rewrite Es' in Hskip. eapply Hskip; [..|reflexivity]; auto.
        - destruct sources as [|c cs] eqn:Esrc; [cbn in Es; congruence|].
          set (s1 := next (r_set_src (r_set_in (r_set_if s 0 (r_velse s)) true) (c :: cs) (Some (r_pos s)) (Some c))).
          assert (S1 : steps s s1).
          { eapply steps_one; [exact Hn|]. cbn [r_step n_type n_d0]. unfold step_block. rewrite Ne, Nle, beq_refl, El.
            let r := eval vm_compute in (beq (B "listing") (B "listing_empty")) in change (beq (B "listing") (B "listing_empty")) with r.
            cbn [negb orb]. rewrite Esrc. cbn [r_cur r_set_in r_set_if]. rewrite (Hcur eq_refl). reflexivity. }
          destruct (@block_listing f (B "listing") a (r_pos s) (flatten k ++ post) lp IHa Hfa Hcode) with (cs := cs) (c := c) (s := s1) (e := e)
            as (s2 & B1 & B2 & B3 & B4 & B5 & B6); auto; try (rewrite Esrc; discriminate).
          { exists e. repeat split; auto. }
          exists s2. split; [eapply steps_trans; eauto|]. split; [rewrite B2; unfold len; lia|]. split; [exact B3|].
          split; [exact B4|]. split; [exact B5|]. split; [congruence|discriminate]. }
      destruct (beq n (B "listing_once")) eqn:No.
      { apply beq_eq in No. subst n. cbn [orb] in *.
        let r := eval vm_compute in (beq (B "listing_once") (B "listing_empty")) in change (beq (B "listing_once") (B "listing_empty")) with r in Hskip, Hplain.
        cbn [orb] in *. destruct listing eqn:El; cbn [negb] in *.
        - apply Hplain. reflexivity.
        - eapply Hskip; [..|reflexivity]; auto. }
      destruct (beq n (B "listing_empty")) eqn:Nem; cbn [orb] in *.
      { destruct listing eqn:El; cbn [negb andb] in *.
        - destruct (Nat.eqb_spec (length sources) 0) as [Es|Es].
          + assert (Es' : sources = []) by (destruct sources; [reflexivity|discriminate]). rewrite Es' in Hplain. apply Hplain. reflexivity.
          + destruct sources as [|c cs] eqn:Esrc; [cbn in Es; congruence|]. eapply Hskip; [..|reflexivity]; auto.
        - eapply Hskip; [..|reflexivity]; auto. }
      apply Hplain. reflexivity. }
    destruct Hs as (s1 & Hs). eapply (then_rest IHk Hfk Hs); [exists post; exact Hk| |].
    + cbn [flatten length]. rewrite app_length. cbn [length]. unfold len. lia.
    + cbn [RenderSpec.meaning]. destruct (block_action sources listing n e) as [act e1]. 
      destruct act as [| |l]; cbn [fst snd].
      * reflexivity.
      * destruct (meaning a lp (enter_plain true e1)). reflexivity.
      * match goal with |- (let '(_, _) := rounds ?F l e1 in _) = _ => change F with (block_body a lp) end. destruct (rounds (block_body a lp) l e1). reflexivity.
Qed.

End Refine.

(* the whole program *)
Theorem render_meaning convert funcs sources listing t entries config : fits false false t -> flatten t <> [] ->
  exists fuel, render convert funcs (flatten t) sources listing fuel entries config =
    Ok (Some (fst (output convert (funcvars_eval funcs) sources listing true t entries config)),
        snd (output convert (funcvars_eval funcs) sources listing true t entries config)).
Proof.
  intros Hf Hne. unfold output.
  destruct (@runs_all convert funcs (flatten t) sources listing t false false None (r_init entries config)
    (Env config entries None None) Hf) as (s' & A1 & A2 & A3 & A4 & _).
  - exists []. cbn. rewrite app_nil_r. reflexivity.
  - repeat split.
  - destruct (steps_loop A1) as (fuel & Hl).
    { apply nth_error_None. rewrite A2. cbn. lia. }
    exists fuel. unfold render. destruct (flatten t) as [|n l] eqn:E; [congruence|]. rewrite <- E in *. unfold rbind. rewrite Hl.
    destruct A4 as ((R1 & _) & _). rewrite A3, R1. cbn [r_out r_init app].
    destruct (meaning convert (funcvars_eval funcs) sources listing true t None (Env config entries None None)). reflexivity.
Qed.
