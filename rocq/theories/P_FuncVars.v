(* The variables that ask the operating system (C86). *)
From Verif Require Import Base Utils Trie TrieProofs Template Renderer FuncVars.
#[local] Arguments B : simpl never.

(* what the manual promises for each name (man/blogc-template.7.ronn) *)
Definition answer (o : os) (name : bytes) : option bytes :=
  if beq name (B "BLOGC_RUSAGE_CPU_TIME") then option_map fst (os_usage o)
  else if beq name (B "BLOGC_RUSAGE_MEMORY") then option_map snd (os_usage o)
  else if beq name (B "BLOGC_SYSINFO_HOSTNAME") then os_hostname o
  else if beq name (B "BLOGC_SYSINFO_DATETIME") then os_datetime o
  else if beq name (B "BLOGC_SYSINFO_USERNAME") then os_username o
  else if beq name (B "BLOGC_SYSINFO_INSIDE_DOCKER") then (if os_docker o then Some (B "1") else None)
  else None.

Definition cpu : bytes := B "BLOGC_RUSAGE_CPU_TIME".
Definition mem : bytes := B "BLOGC_RUSAGE_MEMORY".
(* both variables of rusage are set, or none *)
Definition balanced (g : vars) : Prop := trie_lookup g cpu = None <-> trie_lookup g mem = None.
Definition keeps (k : bytes) (g g' : vars) : Prop :=
  (balanced g -> balanced g') /\ forall v, (k <> cpu /\ k <> mem) \/ balanced g -> trie_lookup g k = Some v -> trie_lookup g' k = Some v.
Lemma keeps_refl k g : keeps k g g. Proof. split; auto. Qed.
Lemma keeps_trans k a b c : keeps k a b -> keeps k b c -> keeps k a c.
Proof. intros [A1 A2] [B1 B2]. split; [auto|]. intros v H E. apply B2; [destruct H; auto|]. apply A2; assumption. Qed.

Ltac nn := apply no_nulb_spec; reflexivity.
Lemma cpu_nn : no_nul cpu. Proof. nn. Qed.
Lemma mem_nn : no_nul mem. Proof. nn. Qed.
Lemma put_keeps k n v g : no_nul k -> no_nul n -> n <> cpu -> n <> mem -> trie_lookup g n = None -> keeps k g (put n v g).
Proof.
  intros Hk Hn H1 H2 E. destruct v as [v|]; [|apply keeps_refl]. cbn [put].
  assert (L : forall k, no_nul k -> trie_lookup g k <> None \/ k <> n -> trie_lookup (trie_insert g n v) k = trie_lookup g k).
  { intros k' Hk' H. rewrite trie_lookup_insert by assumption. destruct (beq n k') eqn:Eb; [|reflexivity]. apply beq_eq in Eb. subst. destruct H; contradiction. }
  split.
  - unfold balanced. rewrite !L by (auto using cpu_nn, mem_nn). auto.
  - intros x _ Ex. rewrite L; [exact Ex|exact Hk|left; congruence].
Qed.
Lemma rusage_keeps o k g : no_nul k -> trie_lookup g cpu = None \/ trie_lookup g mem = None -> keeps k g (rusage_inject o g).
Proof.
  intros Hk H. unfold rusage_inject. destruct (os_usage o) as [[t m]|]; [|apply keeps_refl].
  fold cpu mem. split.
  - intros _. unfold balanced. rewrite !trie_lookup_insert by (apply cpu_nn || apply mem_nn). change (beq mem cpu) with false. change (beq cpu cpu) with true. change (beq mem mem) with true. split; discriminate.
  - intros v Hb E. assert (k <> cpu /\ k <> mem) as [N1 N2].
    { destruct Hb as [Hb|[B1 B2]]; [exact Hb|]. split; intros ->.
      - destruct H as [H|H]; [|apply B2 in H]; rewrite H in E; discriminate.
      - destruct H as [H|H]; [apply B1 in H|]; rewrite H in E; discriminate. }
    rewrite !trie_lookup_insert by (assumption || apply cpu_nn || apply mem_nn).
    destruct (beq mem k) eqn:E1; [apply beq_eq in E1; congruence|]. destruct (beq cpu k) eqn:E2; [apply beq_eq in E2; congruence|]. exact E.
Qed.
Lemma eval_keeps o k g n : no_nul k -> keeps k g (funcvars_eval (os_funcs o) g n).
Proof.
  intro Hk. unfold funcvars_eval. destruct (trie_lookup g n) eqn:E; [apply keeps_refl|].
  unfold os_funcs. cbn [find fst].
  repeat match goal with |- context [beq n ?x] => destruct (beq n x) eqn:?; [match goal with H : beq n x = true |- _ => apply beq_eq in H; subst n end|] end; cbn [snd].
  - apply rusage_keeps; [exact Hk|left; exact E].
  - apply rusage_keeps; [exact Hk|right; exact E].
  - apply put_keeps; [exact Hk|nn|discriminate|discriminate|exact E].
  - apply put_keeps; [exact Hk|nn|discriminate|discriminate|exact E].
  - apply put_keeps; [exact Hk|nn|discriminate|discriminate|exact E].
  - apply put_keeps; [exact Hk|nn|discriminate|discriminate|exact E].
  - apply keeps_refl.
Qed.

Section Render.
Variables (convert : bytes -> bytes -> option bytes) (o : os) (k : bytes).
Hypothesis Hk : no_nul k.
Let F := os_funcs o.
Lemma format_keeps name g l fn fi v g' : format_variable convert F name g l fn fi = Ok (v, g') -> keeps k g g'.
Proof.
  unfold format_variable. intro H.
  destruct (get_variable name g l); [inversion H; subst; apply keeps_refl|].
  destruct (beq name (B "FOREACH_ITEM")); [inversion H; subst; apply keeps_refl|].
  destruct (beq name (B "FOREACH_VALUE")).
  { destruct fn as [?|], fi as [?|]; inversion H; subst; apply keeps_refl. }
  destruct (Nat.eqb (length name) 0); [discriminate|]. destruct (split_size name) as [var size]. cbv zeta in H.
  set (w := if ends_with var (B "_FORMATTED") then _ else var) in H. clearbody w.
  match type of H with (let '(_, _) := ?x in _) = _ => destruct x as [value gg] eqn:E end.
  assert (g' = gg) as -> by (destruct value; congruence). clear H.
  assert (G : keeps k g (funcvars_eval F g w)) by (apply eval_keeps; exact Hk).
  destruct (beq w (B "FOREACH_ITEM")), (beq w (B "FOREACH_VALUE")), fn as [?|], fi as [?|]; injection E as _ <-; first [exact G|apply keeps_refl].
Qed.

Section Template.
Variables (tmpl : list tnode) (sources : list vars) (listing : bool).
Lemma var_keeps s v x : r_var convert F s v = Ok x -> keeps k (r_global s) (snd x).
Proof. destruct x as [a g]. apply format_keeps. Qed.
Lemma skip_block_global s s' : skip_block tmpl s = Ok s' -> r_global s' = r_global s.
Proof. unfold skip_block. destruct (skip_to _ _ _); cbn; try discriminate. intro H. inversion H. reflexivity. Qed.
Lemma block_global s n s' : step_block tmpl sources listing s n = Ok s' -> r_global s' = r_global s.
Proof.
  unfold step_block. intro H.
  repeat match type of H with
  | (if ?x then _ else _) = _ => destruct x
  | match ?x with _ => _ end = _ => destruct x
  | skip_block _ _ = _ => apply skip_block_global in H; rewrite H; reflexivity
  | Ok _ = Ok _ => injection H as <-
  end; try reflexivity.
  cbn. destruct (r_cur _); reflexivity.
Qed.
Lemma cond_keeps s n x : eval_cond convert F s n = Ok x -> keeps k (r_global s) (snd x).
Proof.
  unfold eval_cond. intro H.
  assert (A : exists d g1, match n_d0 n with Some v => r_var convert F s v | None => Ok (None, r_global s) end = Ok (d, g1) /\ keeps k (r_global s) g1).
  { destruct (n_d0 n) as [v|].
    - destruct (r_var convert F s v) as [[d g1]| |] eqn:E; try discriminate. exists d, g1. split; [reflexivity|]. apply (var_keeps E).
    - do 2 eexists. split; [reflexivity|apply keeps_refl]. }
  destruct A as (d & g1 & E1 & K1). rewrite E1 in H. cbn [rbind] in H. clear E1.
  assert (D : forall op, (do (defined2, g2) <- match n_d1 n with
                           | None => Ok (None, g1)
                           | Some d => if Nat.leb 2 (length d) && (nth 0 d NUL == DQ) && (nth (length d - 1) d NUL == DQ)
                               then Ok (Some (firstn (length d - 2) (skipn 1 d)), g1)
                               else r_var convert F (r_set_out s (r_out s) g1) d
                           end ;
      Ok (match d, defined2 with Some a, Some b => op_holds op (strcmp a b) | _, _ => false end, g2)) = Ok x -> keeps k (r_global s) (snd x)).
  { intros op E. destruct (n_d1 n) as [d1|].
    - destruct (_ && _ && _).
      + cbn in E. injection E as <-. exact K1.
      + destruct (r_var convert F _ d1) as [[d2 g2]| |] eqn:E2; try discriminate. cbn in E. injection E as <-. apply var_keeps in E2. cbn in E2. cbn. eapply keeps_trans; eassumption.
    - cbn in E. injection E as <-. exact K1. }
  destruct (n_op n) eqn:Eo; try (exact (D _ H)). injection H as <-. exact K1.
Qed.
Lemma step_keeps s n s' : r_step convert F tmpl sources listing s n = Ok s' -> keeps k (r_global s) (r_global s').
Proof.
  unfold r_step. intro H.
  assert (C : step_if convert F tmpl s n = Ok s' -> keeps k (r_global s) (r_global s')).
  { unfold step_if. destruct (eval_cond _ _ _ _) as [[ev g]| |] eqn:E; try discriminate. apply cond_keeps in E. cbn [snd] in E. cbn [rbind].
    intro K. assert (r_global s' = g) as ->; [|exact E].
    destruct ev; [injection K as <-; reflexivity|]. destruct (skip_if _ _ _ _) as [[[? ?] []]| |]; try discriminate; cbn in K; injection K as <-; reflexivity. }
  destruct (n_type n); try (exact (C H)).
  - unfold step_else in H. destruct (r_velse _); [injection H as <-; apply keeps_refl|]. destruct (skip_if _ _ _ _) as [[[? ?] ?]| |]; try discriminate. cbn in H. injection H as <-. apply keeps_refl.
  - injection H as <-. apply keeps_refl.
  - unfold step_foreach in H. destruct (r_for s); [injection H as <-; apply keeps_refl|].
    assert (S : (do p <- skip_to TEndforeach (skipn (r_pos s) tmpl) (r_pos s) ; Ok (r_set_pos s (p + 1))) = Ok s' -> keeps k (r_global s) (r_global s')).
    { destruct (skip_to _ _ _); cbn; try discriminate. intro K. injection K as <-. apply keeps_refl. }
    destruct (n_d0 n); [|exact (S H)]. destruct (split_list_variable _ _ _); [exact (S H)|]. injection H as <-. apply keeps_refl.
  - injection H as <-. unfold step_endforeach. destruct (r_for s) as [[[? ?] [|? [|? ?]]]|]; apply keeps_refl.
  - destruct (n_d0 n); [|discriminate]. apply block_global in H. rewrite H. apply keeps_refl.
  - injection H as <-. unfold step_endblock. cbn. destruct (r_lstart s); [destruct (r_cur s) as [|? [|? ?]]|]; apply keeps_refl.
  - destruct (n_d0 n) as [v|]; [|injection H as <-; apply keeps_refl]. destruct (r_var _ _ _ _) as [[x g]| |] eqn:E; try discriminate.
    cbn in H. injection H as <-. apply (var_keeps E).
  - injection H as <-. destruct (n_d0 n); apply keeps_refl.
Qed.
End Template.
End Render.

(* the states of a rendering: from one to a later one *)
Inductive later convert funcs tmpl sources listing : rst -> rst -> Prop :=
| Lt_same s : later convert funcs tmpl sources listing s s
| Lt_step s n s1 s2 : nth_error tmpl (r_pos s) = Some n -> r_step convert funcs tmpl sources listing s n = Ok s1 ->
    later convert funcs tmpl sources listing s1 s2 -> later convert funcs tmpl sources listing s s2.
Lemma loop_later convert funcs tmpl sources listing fuel : forall s s', r_loop convert funcs tmpl sources listing fuel s = Ok s' -> later convert funcs tmpl sources listing s s'.
Proof.
  induction fuel as [|f IH]; intros s s'; cbn [r_loop]; destruct (nth_error tmpl (r_pos s)) as [n|] eqn:E; intro H; try discriminate; try (injection H as <-; constructor).
  destruct (r_step _ _ _ _ _ s n) as [s1| |] eqn:E1; try discriminate. eapply Lt_step; [exact E|exact E1|]. apply IH. exact H.
Qed.
Lemma later_keeps convert o k tmpl sources listing s s' : no_nul k -> later convert (os_funcs o) tmpl sources listing s s' -> keeps k (r_global s) (r_global s').
Proof.
  intros Hk H. induction H as [s|s n s1 s2 _ E _ IH]; [apply keeps_refl|]. eapply keeps_trans; [|exact IH]. eapply step_keeps; eassumption.
Qed.

(* C86. In a rendering a variable that has a value keeps it, whether the user gave it
   or the operating system. Proved for configurations that set both or none of the
   variables of rusage, and for all variables but these two. *)
Theorem C86_stable_partial : forall convert o tmpl sources listing entries config s s' k v, no_nul k ->
  later convert (os_funcs o) tmpl sources listing (r_init entries config) s -> later convert (os_funcs o) tmpl sources listing s s' ->
  (k <> B "BLOGC_RUSAGE_CPU_TIME" /\ k <> B "BLOGC_RUSAGE_MEMORY") \/
  (trie_lookup config (B "BLOGC_RUSAGE_CPU_TIME") = None <-> trie_lookup config (B "BLOGC_RUSAGE_MEMORY") = None) ->
  trie_lookup (r_global s) k = Some v -> trie_lookup (r_global s') k = Some v.
Proof.
  intros convert o tmpl sources listing entries config s s' k v Hk H1 H2 Hb E.
  apply (later_keeps Hk) in H1, H2. destruct H1 as [H1 _]. apply H2; [|exact E]. destruct Hb as [Hb|Hb]; [left; exact Hb|right; apply H1; exact Hb].
Qed.
Print Assumptions C86_stable_partial.
(* so the whole page is rendered with the values of the user *)
Theorem C86_user_partial : forall convert o tmpl sources listing fuel entries config out config' k v, no_nul k ->
  render convert (os_funcs o) tmpl sources listing fuel entries config = Ok (out, config') ->
  (k <> B "BLOGC_RUSAGE_CPU_TIME" /\ k <> B "BLOGC_RUSAGE_MEMORY") \/
  (trie_lookup config (B "BLOGC_RUSAGE_CPU_TIME") = None <-> trie_lookup config (B "BLOGC_RUSAGE_MEMORY") = None) ->
  trie_lookup config k = Some v -> trie_lookup config' k = Some v.
Proof.
  intros convert o tmpl sources listing fuel entries config out config' k v Hk H Hb E. unfold render in H.
  destruct tmpl as [|n0 t0]; [congruence|]. destruct (r_loop _ _ _ _ _ _ _) as [s| |] eqn:El; try discriminate. cbn in H. injection H as _ <-.
  apply loop_later in El. eapply C86_stable_partial; [exact Hk|apply Lt_same|exact El|exact Hb|exact E].
Qed.
Print Assumptions C86_user_partial.

(* a variable that nobody has set is what the operating system answers *)
Theorem C86_value : forall convert o name g l, In name (map fst (os_funcs o)) -> get_variable name g l = None -> trie_lookup g name = None ->
  exists g', format_variable convert (os_funcs o) name g l None None = Ok (answer o name, g').
Proof.
  intros convert o name g l I E Eg. unfold format_variable. rewrite E.
  assert (L : match l with Some l => trie_lookup l name | None => None end = None).
  { unfold get_variable in E. destruct l as [l|]; [|reflexivity]. destruct (trie_lookup l name); congruence. }
  assert (V : forall g', get_variable name g' l = trie_lookup g' name) by (intro g'; unfold get_variable; destruct l as [l|]; [rewrite L|]; reflexivity).
  assert (G : trie_lookup (funcvars_eval (os_funcs o) g name) name = answer o name).
  { unfold funcvars_eval. rewrite Eg. unfold answer. cbn [os_funcs map fst In] in I.
    destruct I as [<-|[<-|[<-|[<-|[<-|[<-|[]]]]]]].
    - change (trie_lookup (rusage_inject o g) cpu = option_map fst (os_usage o)). unfold rusage_inject.
      destruct (os_usage o) as [[t m]|]; [|exact Eg]. fold cpu mem. rewrite !trie_lookup_insert by (apply cpu_nn || apply mem_nn). reflexivity.
    - change (trie_lookup (rusage_inject o g) mem = option_map snd (os_usage o)). unfold rusage_inject.
      destruct (os_usage o) as [[t m]|]; [|exact Eg]. fold cpu mem. rewrite !trie_lookup_insert by (apply cpu_nn || apply mem_nn). reflexivity.
    - change (trie_lookup (put (B "BLOGC_SYSINFO_HOSTNAME") (os_hostname o) g) (B "BLOGC_SYSINFO_HOSTNAME") = os_hostname o).
      destruct (os_hostname o); [|exact Eg]. cbn [put]. rewrite trie_lookup_insert, beq_refl by nn. reflexivity.
    - change (trie_lookup (put (B "BLOGC_SYSINFO_DATETIME") (os_datetime o) g) (B "BLOGC_SYSINFO_DATETIME") = os_datetime o).
      destruct (os_datetime o); [|exact Eg]. cbn [put]. rewrite trie_lookup_insert, beq_refl by nn. reflexivity.
    - change (trie_lookup (put (B "BLOGC_SYSINFO_USERNAME") (os_username o) g) (B "BLOGC_SYSINFO_USERNAME") = os_username o).
      destruct (os_username o); [|exact Eg]. cbn [put]. rewrite trie_lookup_insert, beq_refl by nn. reflexivity.
    - change (trie_lookup (put (B "BLOGC_SYSINFO_INSIDE_DOCKER") (if os_docker o then Some (B "1") else None) g) (B "BLOGC_SYSINFO_INSIDE_DOCKER") = if os_docker o then Some (B "1") else None).
      destruct (os_docker o); [|exact Eg]. cbn [put]. rewrite trie_lookup_insert, beq_refl by nn. reflexivity. }
  assert (S : beq name (B "FOREACH_ITEM") = false /\ beq name (B "FOREACH_VALUE") = false /\ Nat.eqb (length name) 0 = false /\
              split_size name = (name, None) /\ ends_with name (B "_FORMATTED") = false).
  { cbn [os_funcs map fst In] in I. destruct I as [<-|[<-|[<-|[<-|[<-|[<-|[]]]]]]]; vm_compute; auto. }
  destruct S as (S1 & S2 & S3 & S4 & S5). rewrite S1, S2, S3, S4. cbv zeta. rewrite S5, S1, S2. rewrite V, G.
  destruct (answer o name); eexists; reflexivity.
Qed.
Print Assumptions C86_value.

Definition ex_os : os := Os (Some (B "1.5ms", B "2.0MB")) (Some (B "host")) None (Some (B "me")) true.
Definition ex_page : list tnode := map (fun v => Node TVariable ONone (Some v) None) [mem; B "BLOGC_SYSINFO_USERNAME"; cpu; mem].
Example C86_ex : exists g, render (fun _ _ => None) (os_funcs ex_os) ex_page [] false 5 [] (trie_insert trie_new (B "BLOGC_SYSINFO_USERNAME") (B "you"))
  = Ok (Some (B "2.0MByou1.5ms2.0MB"), g).
Proof. eexists. vm_compute. reflexivity. Qed.

(* But setting one of the variables of rusage is undone by the use of the other: the
   same variable has two values in one page. *)
Theorem C86_refuted : exists o tmpl config config', trie_lookup config (B "BLOGC_RUSAGE_MEMORY") = Some (B "mine") /\
  tmpl = [Node TVariable ONone (Some (B "BLOGC_RUSAGE_MEMORY")) None; Node TVariable ONone (Some (B "BLOGC_RUSAGE_CPU_TIME")) None;
          Node TVariable ONone (Some (B "BLOGC_RUSAGE_MEMORY")) None] /\
  render (fun _ _ => None) (os_funcs o) tmpl [] false 4 [] config = Ok (Some (B "mine1.5ms2.0MB"), config').
Proof.
  exists ex_os. eexists. exists (trie_insert trie_new (B "BLOGC_RUSAGE_MEMORY") (B "mine")). eexists.
  split; [vm_compute; reflexivity|]. split; [reflexivity|]. vm_compute. reflexivity.
Qed.
Print Assumptions C86_refuted.
