(* Templates and renderings made of UTF-8. *)
From Verif Require Import Base Utils UtilsProofs Utf8 Utf8Proofs Utf8Text Trie Content InlineUtf8 BlockUtf8 SourceUtf8 Template Renderer.
#[local] Open Scope nat_scope.
#[local] Arguments B : simpl never.

Definition nok (n : tnode) : Prop := ook (n_d0 n) /\ ook (n_d1 n).
Definition tu (src : bytes) (cur : nat) (s : tst) : Prop :=
  Forall nok (t_ast s) /\ bd src (t_start s) /\ bd src (t_end s) /\ bd src (t_start2 s) /\ bd src (t_end2 s) /\
  (t_state s = SIfVarOperand -> bd src cur).

Lemma t_dup_ok src lo hi t : ok src -> bd src lo -> bd src hi -> t_dup src lo hi = Ok t -> ok t.
Proof.
  intros H L K. unfold t_dup. destruct (Nat.leb lo hi && Nat.leb hi (length src)) eqn:E; [|discriminate]. apply andb_true_iff in E. destruct E as [E _].
  apply Nat.leb_le in E. intro X; injection X as <-. apply ok_cstr, ok_sub; assumption.
Qed.
Lemma rstrip_last_ok l : Forall nok l -> Forall nok (rstrip_last l).
Proof.
  induction 1 as [|n l Hn Hl IH]; [constructor|]. cbn [rstrip_last]. destruct l; [|constructor; assumption].
  destruct (n_type n); constructor; try assumption; try constructor; cbn [n_d0 n_d1]; try apply Hn.
  intros t E. destruct Hn as [Hn _]. destruct (n_d0 n) as [x|]; [|discriminate]. injection E as <-. apply ok_rstrip. apply Hn. reflexivity.
Qed.
Lemma push_ok src s lo hi s' : ok src -> bd src lo -> bd src hi -> Forall nok (t_ast s) -> push_content s src lo hi = Ok s' ->
  Forall nok (t_ast s') /\ t_state s' = t_state s /\ t_start s' = t_start s /\ t_end s' = t_end s /\ t_start2 s' = t_start2 s /\ t_end2 s' = t_end2 s.
Proof.
  intros Hs L K Ha. unfold push_content. destruct (t_dup src lo hi) as [t| |] eqn:E; cbn [rbind]; try discriminate. apply t_dup_ok in E; try assumption.
  intro X; injection X as <-. cbn. split; [|auto]. apply Forall_app. split; [exact Ha|]. constructor; [|constructor].
  split; cbn; [|exact ook_none]. apply ook_some. destruct (t_lstrip s); [apply ok_lstrip|]; exact E.
Qed.

Ltac tg := match goal with |- tgo ?x = Ok (Datatypes.inl ?y) -> _ => let X := fresh in intro X; injection X as <- end.
Ltac conjs := repeat match goal with |- _ /\ _ => apply conj end.
Ltac tc := unfold tu; cbn; conjs; auto; try discriminate.

Lemma t_step_ok src cur s c last s' : ok src -> nth_error src cur = Some c -> tu src cur s ->
  t_step src cur s c last = Ok (Datatypes.inl s') -> tu src (cur + 1) s'.
Proof.
  intros Hs Ec (H1 & H2 & H3 & H4 & H5 & H6). assert (A : asc c = true -> bd src cur /\ bd src (cur + 1)) by exact (bd_asc Hs Ec).
  assert (AS : isspace c = true -> bd src cur) by (intro E; apply (A (@asc_of isspace eq_refl c E))).
  assert (AU : is_upper c = true -> bd src cur /\ bd src (cur + 1)) by (intro E; apply (A (@asc_of is_upper eq_refl c E))).
  assert (AL : is_lower c = true -> bd src cur) by (intro E; apply (A (@asc_of is_lower eq_refl c E))).
  assert (AV : var_char c = true -> bd src (cur + 1)) by (intro E; apply (A (@asc_of var_char eq_refl c E))).
  assert (AC : forall d, (c == d) = true -> asc d = true -> bd src cur /\ bd src (cur + 1)) by (intros d E; apply eqb_true in E; subst d; exact A).
  assert (KEEP : forall st : tstate, t_state s <> SIfVarOperand -> tu src (cur + 1) s) by (intros st N; tc).
  assert (BS : forall q, t_state q <> SIfVarOperand -> t_ast q = t_ast s -> t_start q = t_start s -> t_end q = t_end s -> t_start2 q = t_start2 s -> t_end2 q = t_end2 s ->
    step_block_start q cur c = Ok (Datatypes.inl s') -> tu src (cur + 1) s').
  { intros q N E1 E2 E3 E4 E5. unfold step_block_start. destruct (isspace c). { tg. unfold tu. rewrite E1, E2, E3, E4, E5. conjs; auto; try (intro; contradiction). }
    destruct (is_lower c). { tg. tc; rewrite ?E1, ?E3, ?E4, ?E5; auto. }
    destruct (c == "-"%char); discriminate. }
  assert (BE : forall q, t_state q = SEnd -> t_ast q = t_ast s -> t_start q = t_start s -> t_end q = t_end s -> t_start2 q = t_start2 s -> t_end2 q = t_end2 s ->
    step_block_end q cur c = Ok (Datatypes.inl s') -> tu src (cur + 1) s').
  { intros q N E1 E2 E3 E4 E5. unfold step_block_end. destruct (c == "%"%char). { tg. tc; rewrite ?E1, ?E2, ?E3, ?E4, ?E5; auto. }
    destruct (c == "-"%char); discriminate. }
  unfold t_step. destruct (t_state s) eqn:St.
  - (* SStart *)
    assert (G : forall s1, Forall nok (t_ast s1) -> t_state s1 = SStart -> bd src (t_start s1) -> bd src (t_end s1) -> bd src (t_start2 s1) -> bd src (t_end2 s1) ->
      (if c == "{"%char then tgo (t_set_state (t_set_end s1 cur) SOpen) else tgo s1) = Ok (Datatypes.inl s') -> tu src (cur + 1) s').
    { intros s1 G1 G2 G3 G4 G5 G6. destruct (c == "{"%char) eqn:E; tg; tc; [apply (AC _ E eq_refl)|rewrite G2; discriminate]. }
    destruct last; [|apply G; auto]. destruct (push_content s src (t_start s) (length src)) as [s1| |] eqn:E; cbn [rbind]; try discriminate.
    apply push_ok in E; auto; [|apply bd_end; auto]. destruct E as (E1 & E2 & E3 & E4 & E5 & E6). apply G; rewrite ?E2, ?E3, ?E4, ?E5, ?E6; auto.
  - (* SOpen *)
    destruct ((c == "%"%char) || (c == "{"%char)); [|tg; tc]. cbv zeta.
    set (s1 := t_set_state s _). assert (S1 : t_state s1 <> SIfVarOperand) by (unfold s1; cbn; destruct (c == "%"%char); discriminate).
    destruct (Nat.ltb (t_start s1) (t_end s1)).
    + destruct (push_content s1 src (t_start s1) (t_end s1)) as [s2| |] eqn:E; cbn [rbind]; try discriminate.
      apply push_ok in E; auto. destruct E as (E1 & E2 & E3 & E4 & E5 & E6). tg. unfold tu. rewrite E2, E3, E4, E5, E6. conjs; auto; try (intro; contradiction).
    + tg. unfold tu. conjs; auto; try (intro; contradiction).
  - apply BS; auto; rewrite St; discriminate.
  - destruct (c == "-"%char). { tg. tc. apply rstrip_last_ok. exact H1. } apply BS; auto; cbn; discriminate.
  - (* SBlockType *)
    unfold step_block_type. cbv zeta. destruct (is_lower c); [tg; apply (KEEP SStart); discriminate|].
    destruct (isspace c) eqn:E; [|discriminate]. specialize (AS eq_refl).
    repeat match goal with |- (if ?b then _ else _) = _ -> _ => destruct b end; try discriminate; try (tg; tc).
  - destruct (isspace c) eqn:E; [tg; apply (KEEP SStart); discriminate|]. destruct (is_lower c) eqn:E2; [tg; tc|discriminate].
  - destruct (_ || _); [tg; apply (KEEP SStart); discriminate|]. destruct (isspace c) eqn:E; [|discriminate]. cbv zeta.
    match goal with |- (if ?b then _ else _) = _ -> _ => destruct b end; [tg; tc|discriminate].
  - destruct (isspace c) eqn:E; [tg; apply (KEEP SStart); discriminate|]. destruct (is_upper c) eqn:E2; [tg; tc; intros; apply (AU eq_refl)|discriminate].
  - destruct (var_char c) eqn:E; [tg; apply (KEEP SStart); discriminate|]. destruct (isspace c) eqn:E2; [|discriminate]. tg. tc. destruct (t_type s); discriminate.
  - destruct (isspace c) eqn:E; [tg; apply (KEEP SStart); discriminate|]. tg; tc.
  - destruct (isspace c) eqn:E; cbn [negb]; [tg; tc|tg; apply (KEEP SStart); discriminate].
  - destruct (isspace c) eqn:E; [tg; apply (KEEP SStart); discriminate|]. destruct (is_upper c) eqn:E2; [tg; tc; intros; apply (AU eq_refl)|].
    destruct (c == DQ) eqn:E3; [tg; tc; intros; apply (AC _ E3 eq_refl)|discriminate].
  - destruct (c == DQ) eqn:E; cbn [negb]; [|tg; apply (KEEP SStart); discriminate].
    match goal with |- rbind ?x _ = _ -> _ => destruct x as [b| |]; cbn [rbind]; try discriminate end.
    destruct (b == BSL); tg; [apply (KEEP SStart); discriminate|]. tc; intros; apply (AC _ E eq_refl).
  - specialize (H6 eq_refl). destruct (var_char c) eqn:E; tg; tc.
  - destruct (isspace c) eqn:E; [tg; apply (KEEP SStart); discriminate|]. destruct (is_upper c) eqn:E2; [tg; tc; intros; apply (AU eq_refl)|discriminate].
  - destruct (var_char c) eqn:E; [tg; apply (KEEP SStart); discriminate|]. destruct (isspace c) eqn:E2; [|discriminate]. tg. tc.
  - destruct (isspace c) eqn:E; [tg; apply (KEEP SStart); discriminate|]. destruct (c == "-"%char); [tg; tc|]. apply BE; auto.
  - apply BE; auto.
  - destruct (isspace c) eqn:E; [tg; apply (KEEP SStart); discriminate|]. destruct (is_upper c) eqn:E2; [tg; tc; intros; apply (AU eq_refl)|discriminate].
  - destruct (var_char c) eqn:E; [tg; apply (KEEP SStart); discriminate|]. destruct (isspace c) eqn:E2; [tg; tc|].
    destruct (c == "}"%char) eqn:E3; [tg; tc; intros; apply (AC _ E3 eq_refl)|discriminate].
  - destruct (isspace c) eqn:E; [tg; apply (KEEP SStart); discriminate|]. destruct (c == "}"%char); [tg; tc|discriminate].
  - (* SClose *)
    destruct (c == "}"%char) eqn:E; [|discriminate].
    assert (G : forall op q, t_ast q = t_ast s -> t_start q = t_start s -> t_end q = t_end s -> t_start2 q = t_start2 s -> t_end2 q = t_end2 s ->
      close_node src cur op q = Ok (Datatypes.inl s') -> tu src (cur + 1) s').
    { intros op q E1 E2 E3 E4 E5. unfold close_node. rewrite E2, E3, E4, E5.
      match goal with |- rbind ?x _ = _ -> _ => destruct x as [d0| |] eqn:D0; cbn [rbind]; try discriminate end.
      assert (K0 : ook d0).
      { destruct (Nat.ltb (t_start s) (t_end s)); [|injection D0 as <-; exact ook_none].
        destruct (t_dup src (t_start s) (t_end s)) as [t| |] eqn:T; cbn [rbind] in D0; try discriminate. injection D0 as <-. apply ook_some. exact (t_dup_ok Hs H2 H3 T). }
      match goal with |- rbind ?x _ = _ -> _ => destruct x as [[d1 [p1 p2]]| |] eqn:D1; cbn [rbind]; try discriminate end.
      assert (K1 : ook d1 /\ bd src p1 /\ bd src p2).
      { destruct (Nat.ltb (t_start2 s) (t_end2 s)); [|injection D1 as <- <- <-; conjs; auto; exact ook_none].
        destruct (t_dup src (t_start2 s) (t_end2 s)) as [t| |] eqn:T; cbn [rbind] in D1; try discriminate. injection D1 as <- <- <-.
        conjs; [apply ook_some; exact (t_dup_ok Hs H4 H5 T)|reflexivity|reflexivity]. }
      destruct K1 as (K1 & K2 & K3). clear BE BS. cbn [fst snd]. cbv zeta. tg. destruct (AC _ E eq_refl) as [A1 A2].
      assert (KA : Forall nok (t_ast q ++ [Node (t_type q) op d0 d1])) by (rewrite E1; apply Forall_app; split; [exact H1|constructor; [split; assumption|constructor]]).
      set (s2 := match t_type q with TBlock => t_set_block_type (t_set_2 q p1 p2) d0 | _ => t_set_2 q p1 p2 end).
      assert (S2 : t_ast s2 = t_ast q /\ t_end s2 = t_end q /\ t_start2 s2 = p1 /\ t_end2 s2 = p2) by (unfold s2; destruct (t_type q); cbn; auto).
      destruct S2 as (S2 & S3 & S4 & S5). unfold tu; cbn; fold s2; cbn. rewrite S2, S3, S4, S5, E3. conjs; auto; discriminate. }
    unfold step_close. destruct (Nat.ltb _ _); [|apply G; reflexivity]. destruct (Nat.leb _ _); [|discriminate].
    destruct (op_of _); [|discriminate]. apply G; reflexivity.
Qed.
Theorem template_utf8 src l : ok src -> template_parse src = Ok (Datatypes.inl l) -> Forall nok l.
Proof.
  intro Hs. unfold template_parse. assert (G : forall f cur s, tu src cur s -> t_loop f src cur s = Ok (Datatypes.inl l) -> Forall nok l).
  { induction f as [|f IH]; intros cur s I; [discriminate|]. cbn [t_loop]. destruct (Nat.ltb cur (length src)).
    - unfold rd. destruct (nth_error src cur) as [c|] eqn:Ec; cbn [rbind]; [|discriminate].
      destruct (t_step src cur s c _) as [[s1|e]| |] eqn:E; cbn [rbind]; try discriminate. apply IH. exact (t_step_ok Hs Ec I E).
    - unfold t_finish. intro E. assert (K : forall e, (if negb (Nat.eqb (t_ifs s) 0) then inr (TErr (MIfs (t_ifs s)) None)
      else if t_block s then inr (TErr MBlockOpen None) else if t_foreach s then inr (TErr MForeachOpen None) else Datatypes.inl (t_ast s)) = e -> e = Datatypes.inl l -> Forall nok l).
      { intros e <-. destruct (negb _); [discriminate|]. destruct (t_block s); [discriminate|]. destruct (t_foreach s); [discriminate|]. intro X; injection X as <-. apply I. }
      destruct (t_state s); try discriminate; (eapply K; [reflexivity|injection E as ->; reflexivity]). }
  apply G. tc; constructor.
Qed.

(* rendering *)
Definition onok (o : option vars) : Prop := match o with Some t => tall t | None => True end.
Lemma get_ok name g l v : tall g -> onok l -> get_variable name g l = Some v -> ok v.
Proof.
  intros Hg Hl. unfold get_variable. destruct l as [t|]; [|apply tall_lookup; assumption].
  destruct (trie_lookup t name) eqn:E; [|apply tall_lookup; assumption]. intro X; injection X as <-. exact (tall_lookup Hl E).
Qed.
Section Rendering.
Variable convert : bytes -> bytes -> option bytes.
Variable funcs : list (bytes * (vars -> vars)).
Hypothesis Hv : forall d f r, ok d -> ok f -> convert d f = Some r -> ok r.
Hypothesis Hf : forall f g, In f funcs -> tall g -> tall (snd f g).

Lemma eval_tall g n : tall g -> tall (funcvars_eval funcs g n).
Proof.
  intro H. unfold funcvars_eval. destruct (trie_lookup g n); [exact H|]. destruct (find _ funcs) as [f|] eqn:E; [|exact H].
  apply Hf; [|exact H]. apply find_some in E. apply E.
Qed.
Lemma format_date_ok d g l : ok d -> tall g -> onok l -> ok (format_date convert d g l).
Proof.
  intros Hd Hg Hl. unfold format_date. destruct (get_variable _ g l) as [f|] eqn:E; [|exact Hd].
  destruct (convert d f) eqn:C; [|exact Hd]. exact (Hv Hd (get_ok Hg Hl E) C).
Qed.
Lemma format_variable_ok name g l fn fi v g' : tall g -> onok l -> ook fi ->
  format_variable convert funcs name g l fn fi = Ok (v, g') -> tall g' /\ (snd (split_size name) = None -> ook v).
Proof.
  intros Hg Hl Hi. unfold format_variable. destruct (get_variable name g l) as [x|] eqn:E.
  { intro X; injection X as <- <-. split; [exact Hg|]. intros _. apply ook_some. exact (get_ok Hg Hl E). }
  destruct (beq name (B "FOREACH_ITEM")). { intro X; injection X as <- <-. auto. }
  assert (GV : forall n t, tall t -> ook (get_variable n t l)) by (intros n t Ht y Ey; exact (get_ok Ht Hl Ey)).
  destruct (beq name (B "FOREACH_VALUE")).
  { destruct fn as [n|]; [destruct fi as [i|]|]; intro X; injection X as <- <-; split; auto; intros; exact ook_none. }
  destruct (Nat.eqb (length name) 0); [discriminate|]. destruct (split_size name) as [var size] eqn:SS. cbn [snd]. cbv zeta.
  set (var1 := if ends_with var (B "_FORMATTED") then _ else var).
  match goal with |- context[let '(_, _) := ?m in _] => set (mm := m) end.
  assert (M : ook (fst mm) /\ tall (snd mm)).
  { unfold mm. assert (K : ook (fst (match beq var1 (B "FOREACH_VALUE"), fn, fi with
              | true, Some n, Some i => (get_variable (foreach_value_variable n i) g l, g)
              | _, _, _ => let g0 := funcvars_eval funcs g var1 in (get_variable var1 g0 l, g0)
              end)) /\ tall (snd (match beq var1 (B "FOREACH_VALUE"), fn, fi with
              | true, Some n, Some i => (get_variable (foreach_value_variable n i) g l, g)
              | _, _, _ => let g0 := funcvars_eval funcs g var1 in (get_variable var1 g0 l, g0)
              end))).
    { assert (K0 : ook (get_variable var1 (funcvars_eval funcs g var1) l) /\ tall (funcvars_eval funcs g var1)) by (split; [apply GV|]; apply eval_tall; exact Hg).
      destruct (beq var1 (B "FOREACH_VALUE")); [|exact K0]. destruct fn; [|exact K0]. destruct fi; [|exact K0]. split; [apply GV|]; exact Hg. }
    destruct (beq var1 (B "FOREACH_ITEM")); [|exact K]. destruct fi; [|exact K]. split; [exact Hi|exact Hg]. }
  clearbody mm. destruct mm as [value gg]. cbn [fst snd] in M. destruct M as [M1 M2]. destruct value as [x|].
  - intro X; injection X as <- <-. split; [exact M2|]. intros ->. apply ook_some. assert (Ox : ok x) by (apply M1; reflexivity).
    destruct (ends_with var _); [|exact Ox]. destruct (starts_with name _); [|exact Ox]. apply format_date_ok; assumption.
  - intro X; injection X as <- <-. split; [exact M2|]. intros _. exact ook_none.
Qed.

Section Nodes.
Variable tmpl : list tnode.
Variable sources : list vars.
Variable listing : bool.
Hypothesis Hn : Forall nok tmpl.
Hypothesis Hs : Forall tall sources.
Hypothesis Hz : forall n v, In n tmpl -> n_type n = TVariable -> n_d0 n = Some v -> snd (split_size v) = None.

Definition ru (s : rst) : Prop :=
  ok (r_out s) /\ tall (r_global s) /\ Forall tall (r_cur s) /\ onok (r_tmp s) /\ Forall onok (r_entries s) /\
  (forall p n l, r_for s = Some (p, n, l) -> Forall ok l).
Ltac rc := unfold ru; cbn; conjs; auto.

Lemma ru_local s : ru s -> onok (r_local s).
Proof. intros (_ & _ & _ & H & _). unfold r_local. destruct (r_in s); [exact H|exact I]. Qed.
Lemma ru_item s : ru s -> ook (r_fitem s).
Proof.
  intros (_ & _ & _ & _ & _ & H). unfold r_fitem. destruct (r_for s) as [[[p n] [|i l]]|]; try exact ook_none.
  specialize (H p n (i :: l) eq_refl). inversion H; subst. apply ook_some. assumption.
Qed.
Lemma r_var_ok s v x g : ru s -> r_var convert funcs s v = Ok (x, g) -> tall g /\ (snd (split_size v) = None -> ook x).
Proof. intros I E. unfold r_var in E. apply format_variable_ok in E; [exact E|apply I|apply ru_local; exact I|apply ru_item; exact I]. Qed.
Lemma hd_ok l : Forall tall l -> onok (hd_opt l).
Proof. destruct 1; [exact I|assumption]. Qed.
Lemma eval_cond_ok s n b g : ru s -> eval_cond convert funcs s n = Ok (b, g) -> tall g.
Proof.
  intros H. unfold eval_cond.
  match goal with |- rbind ?x _ = _ -> _ => destruct x as [[d g1]| |] eqn:E; cbn [rbind]; try discriminate end.
  assert (G1 : tall g1). { destruct (n_d0 n). - exact (proj1 (r_var_ok H E)). - injection E as <- <-. apply H. }
  cbv zeta. assert (R1 : ru (r_set_out s (r_out s) g1)) by (destruct H as (? & ? & ? & ? & ? & ?); rc).
  destruct (n_op n); [intro X; injection X as <- <-; exact G1|..];
  (match goal with |- rbind ?x _ = _ -> _ => destruct x as [[d2 g2]| |] eqn:E2; cbn [rbind]; try discriminate end;
   intro X; injection X as <- <-;
   destruct (n_d1 n) as [dd|]; [|injection E2 as <- <-; exact G1];
   destruct (_ && _) in E2; [injection E2 as <- <-; exact G1|exact (proj1 (r_var_ok R1 E2))]).
Qed.
Lemma r_step_ok s n s' : ru s -> In n tmpl -> r_step convert funcs tmpl sources listing s n = Ok s' -> ru s'.
Proof.
  intros H Hi. pose proof H as (H1 & H2 & H3 & H4 & H5 & H6). unfold r_step.
  assert (Nn : nok n) by (rewrite Forall_forall in Hn; exact (Hn n Hi)).
  assert (IF : step_if convert funcs tmpl s n = Ok s' -> ru s').
  { unfold step_if. cbv zeta. destruct (eval_cond _ _ _ n) as [[b g]| |] eqn:E; cbn [rbind]; try discriminate.
    apply eval_cond_ok in E; [|rc]. destruct b. { intro X; injection X as <-. rc. }
    destruct (skip_if _ _ _ _) as [[[p i] st]| |]; cbn [rbind]; try discriminate. destruct st; intro X; injection X as <-; rc. }
  destruct (n_type n) eqn:Ty; try exact IF.
  - unfold step_else. cbv zeta. cbn [r_set_if r_velse]. destruct (r_velse s); [intro X; injection X as <-; rc|].
    destruct (skip_if _ _ _ _) as [[[p i] st]| |]; cbn [rbind]; try discriminate. intro X; injection X as <-; rc.
  - intro X; injection X as <-. rc.
  - unfold step_foreach. destruct (r_for s) as [ff|] eqn:Ef; [intro X; injection X as <-; rc; rewrite Ef; auto|].
    assert (SK : (do p <- skip_to TEndforeach (skipn (r_pos s) tmpl) (r_pos s); Ok (r_set_pos s (p + 1))) = Ok s' -> ru s').
    { destruct (skip_to _ _ _) as [p| |]; cbn [rbind]; try discriminate. intro X; injection X as <-. rc. rewrite Ef. discriminate. }
    destruct (n_d0 n) as [v|]; [|exact SK].
    assert (SL : Forall ok (split_list_variable v (r_global s) (r_local s))).
    { unfold split_list_variable. destruct (get_variable _ _ _) as [x|] eqn:E; [|constructor]. apply get_ok in E; [|exact H2|apply ru_local; exact H].
      apply Forall_forall. intros y Hy. apply filter_In in Hy. destruct Hy as [Hy _]. pose proof (ok_split_str (c := SP) 0 eq_refl E) as F. rewrite Forall_forall in F. exact (F y Hy). }
    destruct (split_list_variable _ _ _) as [|i l]; [exact SK|]. intro X; injection X as <-. rc. intros ? ? ? X; injection X as <- <- <-. exact SL.
  - intro X; injection X as <-. unfold step_endforeach. destruct (r_for s) as [[[p m] [|i [|j l]]]|] eqn:Ef; try (rc; discriminate).
    rc. intros ? ? ? X; injection X as <- <- <-. specialize (H6 _ _ _ eq_refl). inversion H6; assumption.
  - destruct (n_d0 n) as [name|]; [|discriminate]. unfold step_block, skip_block. cbv zeta.
    set (s1 := r_set_in _ _). assert (R1 : ru s1) by (unfold s1; rc). clearbody s1. clear H H1 H2 H3 H4 H5 H6 IF. destruct R1 as (H1 & H2 & H3 & H4 & H5 & H6).
    assert (SK : forall q, ru q -> (do p <- skip_to TEndblock (skipn (r_pos q) tmpl) (r_pos q); Ok (r_set_pos q (p + 1))) = Ok s' -> ru s').
    { intros q (Q1 & Q2 & Q3 & Q4 & Q5 & Q6). destruct (skip_to _ _ _) as [p| |]; cbn [rbind]; try discriminate. intro X; injection X as <-. rc. }
    assert (R1 : ru s1) by rc.
    destruct (beq name _). { destruct listing; [apply SK; exact R1|]. intro X; injection X as <-. rc. apply hd_ok. exact Hs. }
    destruct (beq name _).
    { destruct (r_entries s1) as [|e rest] eqn:Ee; [apply SK; exact R1|]. inversion H5 as [|? ? He Hr]; subst.
      destruct e; [|apply SK; rc]. destruct listing; [|apply SK; rc]. intro X; injection X as <-. rc. }
    destruct (_ || _); [|intro X; injection X as <-; rc]. destruct listing; cbn [negb]; [|apply SK; exact R1].
    destruct (beq name _). { destruct sources; [intro X; injection X as <-; rc|apply SK; exact R1]. }
    destruct (beq name _); [|intro X; injection X as <-; rc].
    assert (Hs' := Hs). destruct sources as [|q qs] eqn:Eq; [apply SK; exact R1|]. rewrite <- Eq in *. intro X; injection X as <-.
    destruct (r_cur s1) eqn:Ec; rc; try (apply hd_ok; auto); rewrite ?Ec; auto. 
  - intro X; injection X as <-. unfold step_endblock. cbn [r_set_in r_lstart r_cur]. destruct (r_lstart s); [|rc]. destruct (r_cur s) as [|x [|y r]] eqn:Ec; [rc; rewrite Ec; constructor|rc|].
    inversion H3; subst. rc.
  - destruct (n_d0 n) as [v|] eqn:Ed; [|intro X; injection X as <-; rc].
    destruct (r_var convert funcs s v) as [[x g]| |] eqn:E; cbn [rbind]; try discriminate. apply (r_var_ok H) in E. destruct E as [E1 E2].
    specialize (E2 (@Hz n v Hi Ty Ed)). intro X; injection X as <-. rc. apply ok_app; [exact H1|]. destruct x; [apply E2; reflexivity|apply ok_nil].
  - intro X; injection X as <-. destruct (n_d0 n) as [t|] eqn:Ed; rc. apply ok_app; [exact H1|]. destruct Nn as [Nn _]. apply Nn. exact Ed.
Qed.
Theorem render_utf8 fuel entries config out g : Forall onok entries -> tall config ->
  render convert funcs tmpl sources listing fuel entries config = Ok (out, g) -> ook out /\ tall g.
Proof.
  intros He Hc. unfold render. assert (G : forall f s s', ru s -> r_loop convert funcs tmpl sources listing f s = Ok s' -> ru s').
  { induction f as [|f IH]; intros s s' I; cbn [r_loop]; destruct (nth_error tmpl (r_pos s)) as [n|] eqn:E; try discriminate; try (intro X; injection X as <-; exact I).
    destruct (r_step _ _ _ _ _ s n) as [s1| |] eqn:Es; cbn [rbind]; try discriminate. apply IH. apply (r_step_ok I) in Es; [exact Es|]. exact (nth_error_In _ _ E). }
  destruct tmpl as [|n0 r0] eqn:Et; [intro X; injection X as <- <-; split; [exact ook_none|exact Hc]|]. rewrite <- Et in *.
  match goal with |- rbind ?x _ = _ -> _ => destruct x as [s| |] eqn:E; cbn [rbind]; try discriminate end. apply G in E.
  - intro X; injection X as <- <-. split; [apply ook_some|]; apply E.
  - rc; [exact ok_nil|discriminate].
Qed.
End Nodes.
End Rendering.
