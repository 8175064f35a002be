(* C48, C49, C54, C56 and C66: the rules of blogc-make. *)
From Verif Require Import Base Utils UtilsProofs Trie TrieProofs Settings Filename Source BlogcCmd MainSpec Rules RulesSpec P_Main.
From Coq Require Import ZArith.
#[local] Open Scope nat_scope.
#[local] Arguments B : simpl never.

(* ---------- C48 ---------- *)
Lemma newer_spec s o : newer s o = false <-> not_later s o.
Proof.
  unfold newer, not_later. destruct s as [a b], o as [x y]. cbn [fst snd]. destruct (Z.eqb_spec a x) as [->|Hn].
  - rewrite Z.ltb_ge. lia.
  - rewrite Z.ltb_ge. lia.
Qed.
Lemma stale_spec o s : stale o s = false <-> exists f, s = Some f /\ f_readable f = true /\ not_later (f_time f) (f_time o).
Proof.
  unfold stale. destruct s as [f|]; [|split; [discriminate|intros (f & E & _); discriminate]].
  destruct (f_readable f) eqn:Er; cbn [negb].
  - rewrite newer_spec. split; [intro H; exists f; auto|intros (g & E & _ & H)]. injection E as <-. exact H.
  - split; [discriminate|intros (g & E & Hr & _)]. injection E as <-. congruence.
Qed.
Lemma existsb_false {A} (p : A -> bool) l : existsb p l = false <-> forall x, In x l -> p x = false.
Proof.
  induction l as [|a l IH]; cbn [existsb In]; [split; [intros _ x []|reflexivity]|]. rewrite orb_false_iff, IH.
  split; [intros [H1 H2] x [<-|Hx]; auto|intro H; split; [apply H; auto|intros x Hx; apply H; auto]].
Qed.

(* the files an output depends on *)
Definition depends (sources : list (option fctx)) (settings entry template : option fctx) (only_first : bool) (f : option fctx) : Prop :=
  (f <> None /\ (f = settings \/ f = entry \/ f = template))
  \/ (if only_first then exists r, sources = f :: r else In f sources).
Theorem C48_rebuild : forall sources settings entry template output only_first,
  need_rebuild sources settings entry template output only_first = false <->
  exists o, output = Some o /\ f_readable o = true /\
    forall f, depends sources settings entry template only_first f ->
      exists g, f = Some g /\ f_readable g = true /\ not_later (f_time g) (f_time o).
Proof.
  intros sources settings entry template output only_first. unfold need_rebuild.
  destruct output as [o|]; [|split; [discriminate|intros (o & E & _); discriminate]].
  destruct (f_readable o) eqn:Er; cbn [negb].
  2: { split; [discriminate|intros (o' & E & Hr & _)]. injection E as <-. congruence. }
  rewrite existsb_false.
  assert (D : forall f, In f (opt_list settings ++ opt_list template ++ opt_list entry ++ (if only_first then firstn 1 sources else sources))
              <-> depends sources settings entry template only_first f).
  { intro f. rewrite !in_app_iff. unfold depends.
    assert (O : forall x : option fctx, In f (opt_list x) <-> f <> None /\ f = x).
    { intros [x|]; cbn [opt_list In]; [|split; [intros []|intros [H E]; congruence]].
      split; [intros [<-|[]]; split; [discriminate|reflexivity]|intros [_ ->]; auto]. }
    rewrite !O. assert (S : In f (if only_first then firstn 1 sources else sources) <-> (if only_first then exists r, sources = f :: r else In f sources)).
    { destruct only_first; [|reflexivity]. destruct sources as [|x r]; cbn [firstn In]; [split; [intros []|intros (r & E); discriminate]|].
      split; [intros [<-|[]]; eauto|intros (r' & E); injection E as -> _; auto]. }
    rewrite S. tauto. }
  split.
  - intro H. exists o. split; [reflexivity|]. split; [exact Er|]. intros f Hf. apply stale_spec. apply H. apply D. exact Hf.
  - intros (o' & E & _ & H) f Hf. injection E as <-. apply stale_spec. apply H. apply D. exact Hf.
Qed.
Print Assumptions C48_rebuild.
Example C48_example :
  let f t := Some (Fctx (B "a") (B "a") None t true) in
  need_rebuild [f (5, 2)%Z; f (4, 9)%Z] (f (1, 1)%Z) None (f (5, 3)%Z) (f (5, 3)%Z) false = false
  /\ need_rebuild [f (5, 2)%Z; f (5, 4)%Z] (f (1, 1)%Z) None (f (5, 3)%Z) (f (5, 3)%Z) false = true
  /\ need_rebuild [f (5, 2)%Z; f (5, 4)%Z] (f (1, 1)%Z) None (f (5, 3)%Z) (f (5, 3)%Z) true = false.
Proof. repeat split. Qed.

(* ---------- C54 ---------- *)
Lemma cut_spec c s : match cut c s with
                     | Some (a, b) => s = a ++ c :: b /\ ~ In c a
                     | None => ~ In c s
                     end.
Proof.
  induction s as [|x s IH]; cbn [cut]; [intros []|]. destruct (x == c) eqn:E.
  - apply eqb_true in E. subst. split; [reflexivity|intros []].
  - assert (N : x <> c) by (intros ->; rewrite eqb_refl in E; discriminate).
    destruct (cut c s) as [[a b]|].
    + destruct IH as [-> Ha]. split; [reflexivity|]. intros [->|Hi]; auto.
    + intros [->|Hi]; auto.
Qed.
Lemma cut_at c a b : ~ In c a -> cut c (a ++ c :: b) = Some (a, b).
Proof.
  induction a as [|x a IH]; intro H; cbn [cut app]; [rewrite eqb_refl; reflexivity|].
  replace (x == c) with false; [rewrite IH; [reflexivity|intro; apply H; right; assumption]|].
  symmetry. apply eqb_neq. intros ->. apply H. left. reflexivity.
Qed.
Lemma cut_none c s : ~ In c s -> cut c s = None.
Proof. intro H. pose proof (cut_spec c s) as E. destruct (cut c s) as [[a b]|]; [|reflexivity]. destruct E as [-> _]. exfalso. apply H. apply in_or_app. right. left. reflexivity. Qed.

Lemma args_sound fuel : forall rv s t, args_loop fuel rv s = Some t -> exists l, arguments s l /\ t = insert_all rv l.
Proof.
  induction fuel as [|fuel IH]; intros rv s t H; [discriminate|]. cbn [args_loop] in H.
  pose proof (cut_spec "="%char s) as C. destruct (cut "="%char s) as [[k r]|]; [|discriminate]. destruct C as [-> Hk].
  pose proof (cut_spec ","%char r) as C. destruct (cut ","%char r) as [[v r']|].
  - destruct C as [-> Hv]. apply IH in H. destruct H as (l & Hl & ->). exists ((k, v) :: l).
    split; [|reflexivity]. apply A_more; assumption.
  - inv H. exists [(k, r)]. split; [|reflexivity]. apply A_one; assumption.
Qed.
Lemma args_complete s l : arguments s l -> forall fuel rv, length s < fuel -> args_loop fuel rv s = Some (insert_all rv l).
Proof.
  induction 1 as [k v Hk Hv|k v s l Hk Hv Hl IH]; intros fuel rv Hf; (destruct fuel as [|fuel]; [lia|]); cbn [args_loop].
  - change (B "=" ++ v) with ("="%char :: v). rewrite (cut_at v Hk), (cut_none Hv). reflexivity.
  - change (B "=" ++ v ++ B "," ++ s) with ("="%char :: v ++ ","%char :: s). rewrite (cut_at _ Hk), (cut_at s Hv).
    rewrite IH; [reflexivity|]. rewrite !app_length in Hf. change (length (B "=")) with 1 in Hf. change (length (B ",")) with 1 in Hf. lia.
Qed.
(* The arguments after the ':' are understood if and only if they are of the documented
   form, and mean that mapping, the last value of a key counting. *)
Theorem C54_arguments : forall s t,
  parse_rule_args (B ":" ++ s) = Some t <-> exists l, arguments s l /\ t = insert_all trie_new l.
Proof.
  intros s t. change (parse_rule_args (B ":" ++ s)) with (args_loop (S (length s)) trie_new s). split; [apply args_sound|].
  intros (l & Hl & ->). apply args_complete; [exact Hl|lia].
Qed.
Theorem C54_mapping : forall s l n, no_nul s -> no_nul n -> arguments s l ->
  exists t, parse_rule_args (B ":" ++ s) = Some t /\ trie_lookup t n = last_def n l.
Proof.
  intros s l n Hs Hn Hl. exists (insert_all trie_new l). split; [apply C54_arguments; eauto|].
  rewrite insert_all_lookup; [rewrite trie_lookup_new; destruct (last_def n l); reflexivity|exact Hn|].
  revert Hs. induction Hl as [k v Hk Hv|k v s l Hk Hv Hl IH]; intro Hs; apply no_nul_app in Hs; destruct Hs as [H1 H2];
    (constructor; [exact H1|]); [constructor|]. apply IH. apply no_nul_app in H2. destruct H2 as [_ H2]. apply no_nul_app in H2.
  destruct H2 as [_ H2]. apply no_nul_app in H2. apply H2.
Qed.
Print Assumptions C54_arguments.
Print Assumptions C54_mapping.
Example C54_example : exists t, parse_rule_args (B ":host=::1,port=80=x,host=b") = Some t
  /\ trie_lookup t (B "host") = Some (B "b") /\ trie_lookup t (B "port") = Some (B "80=x").
Proof. eexists. split; [vm_compute; reflexivity|]. split; vm_compute; reflexivity. Qed.
(* a comma at the end and text without '=' make the whole list unusable *)
Example C54_rejected : parse_rule_args (B ":host=a,") = None /\ parse_rule_args (B ":host") = None /\ parse_rule_args (B ":") = None.
Proof. vm_compute. auto. Qed.

(* ---------- C49 ---------- *)
Section Executor.
Variable W : Type.
Variable stat : W -> bytes -> option (Z * Z).
Variable command : W -> bytes -> bytes -> W * cmd_result.
Variable cp : W -> fctx -> fctx -> W * nat.
Variable rm : W -> bytes -> fctx -> W * nat.
Variable helper : bytes -> ctx -> option (trie bytes) -> W -> W * nat.
Notation rule_of := (find_rule stat command cp rm helper).
Notation exec := (executor stat command cp rm helper).

(* the requested rules one after the other, as long as each is there and succeeds *)
Inductive succeeds (c : ctx) : list bytes -> W -> W -> Prop :=
| S_nil w : succeeds c [] w w
| S_cons s l name args r w w1 w2 : split_rule s = (name, args) -> rule_of name = Some r -> r c args w = (w1, Ok 0) ->
    succeeds c l w1 w2 -> succeeds c (s :: l) w w2.
(* the first rule that does not *)
Inductive fails (c : ctx) : list bytes -> W -> W -> nat -> Prop :=
| F_here s l name args r w w1 n : split_rule s = (name, args) -> rule_of name = Some r -> r c args w = (w1, Ok n) -> n <> 0 ->
    fails c (s :: l) w w1 n
| F_later s l name args r w w1 w2 n : split_rule s = (name, args) -> rule_of name = Some r -> r c args w = (w1, Ok 0) ->
    fails c l w1 w2 n -> fails c (s :: l) w w2 n.
Definition known (s : bytes) : Prop := rule_of (fst (split_rule s)) <> None.

(* If all requested rules exist, the status is 0 exactly if all succeeded; otherwise it is
   the status of the first that failed, and none is run after it. *)
Theorem C49_executor_partial : forall c l w w' n, Forall known l ->
  (exec c l 0 w = (w', Ok 0) <-> succeeds c l w w') /\
  (n <> 0 -> (exec c l 0 w = (w', Ok n) <-> fails c l w w' n)).
Proof.
  intros c l. induction l as [|s l IH]; intros w w' n Hk.
  - cbn [executor]. split.
    + split; [intro E; inv E; constructor|]. intro H. inversion H; subst. reflexivity.
    + intro Hn. split; [intro E; inv E; congruence|]. intro H. inversion H.
  - inversion Hk as [|? ? K1 K2]; subst. unfold known in K1. cbn [executor]. destruct (split_rule s) as [name args] eqn:Es. cbn [fst] in K1.
    destruct (rule_of name) as [r|] eqn:Er; [|congruence]. destruct (r c args w) as [w1 x] eqn:Ex.
    assert (U1 : forall w2 m, fails c (s :: l) w w2 m -> (x = Ok m /\ w2 = w1 /\ m <> 0) \/ (x = Ok 0 /\ fails c l w1 w2 m)).
    { intros w2 m H. inversion H as [s' l' name' args' r' w0 w1' n' E1 E2 E3 E4|s' l' name' args' r' w0 w1' w2' n' E1 E2 E3 E4]; subst;
        rewrite Es in E1; injection E1 as <- <-; rewrite Er in E2; injection E2 as <-; rewrite Ex in E3; injection E3 as <- ->; auto. }
    assert (U2 : forall w2, succeeds c (s :: l) w w2 -> x = Ok 0 /\ succeeds c l w1 w2).
    { intros w2 H. inversion H as [|s' l' name' args' r' w0 w1' w2' E1 E2 E3 E4]; subst.
      rewrite Es in E1; injection E1 as <- <-; rewrite Er in E2; injection E2 as <-; rewrite Ex in E3; injection E3 as <- ->; auto. }
    split; [|intro Hn].
    + split.
      * intro H. destruct x as [[|m]| |]; [|inv H|inv H|inv H]. econstructor; [exact Es|exact Er|exact Ex|]. apply (proj1 (IH w1 w' 0 K2)). exact H.
      * intro H. apply U2 in H. destruct H as [-> H]. apply (proj1 (IH w1 w' 0 K2)). exact H.
    + split.
      * intro H. destruct x as [[|m]| |]; [|inv H; eapply F_here; eauto|inv H|inv H].
        eapply F_later; [exact Es|exact Er|exact Ex|]. apply (proj2 (IH w1 w' n K2) Hn). exact H.
      * intro H. apply U1 in H. destruct H as [(-> & -> & _)|(-> & H)]; [destruct n; [congruence|reflexivity]|].
        apply (proj2 (IH w1 w' n K2) Hn). exact H.
Qed.

(* a rule that is not there as the last one gives 1 *)
Theorem C49_unknown_last : forall c l s w, ~ known s -> forall rv, exists w' n, exec c (l ++ [s]) rv w = (w', n) /\ n <> Ok 0.
Proof.
  intros c l s w Hs. revert w. induction l as [|a l IH]; intros w rv; cbn [app executor].
  - unfold known in Hs. destruct (split_rule s) as [name args]. cbn [fst] in Hs. destruct (rule_of name) eqn:Er.
    + exfalso. apply Hs. discriminate.
    + do 2 eexists. split; [reflexivity|discriminate].
  - destruct (split_rule a) as [name args]. destruct (rule_of name) as [r|].
    + destruct (r c args w) as [w1 x]. destruct x as [[|m]| |]; [apply IH| | |]; do 2 eexists; split; try reflexivity; discriminate.
    + apply IH.
Qed.
(* but it is forgotten when another rule follows *)
Theorem C49_forgotten : forall c s t w w', ~ known s -> succeeds c [t] w w' -> exec c [s; t] 0 w = (w', Ok 0).
Proof.
  intros c s t w w' Hs Ht. unfold known in Hs. cbn [executor]. destruct (split_rule s) as [name args]. cbn [fst] in Hs.
  destruct (rule_of name) eqn:Er; [exfalso; apply Hs; discriminate|].
  inversion Ht as [|s' l' name' args' r' w0 w1' w2' E1 E2 E3 E4]; subst. rewrite E1, E2, E3. inversion E4; subst. reflexivity.
Qed.
End Executor.
Print Assumptions C49_executor_partial.
Print Assumptions C49_unknown_last.
Print Assumptions C49_forgotten.

(* a context for the examples *)
Definition ex_st : settings := Settings trie_new trie_new None None None None.
Definition ex_file (n : bytes) (t : Z * Z) : fctx := Fctx (B "/r/" ++ n) n None t true.
Definition ex_ctx : ctx := Ctx (Ectx (B "blogc") (B "blogc-runserver") ex_st (B "/r/_build") false) (B "/r") (B "_build")
  (ex_file (B "t") (1, 0)%Z) (ex_file (B "a") (1, 0)%Z) false (ex_file (B "blogcfile") (1, 0)%Z) None [] [] [].
Definition ex_helper (name : bytes) (_ : ctx) (_ : option (trie bytes)) (w : list bytes) : list bytes * nat :=
  (w ++ [name], if beq name (B "atom_dump") then 3 else 0).
Notation ex_exec := (executor (fun _ _ => None) (fun w _ _ => (w, CmdError)) (fun w _ _ => (w, 1)) (fun w _ _ => (w, 1)) ex_helper ex_ctx).
Example C49_example : ex_exec [B "watch:x=y"; B "all"; B "runserver"] 0 [] = ([B "watch"; B "runserver"], Ok 0)
  /\ ex_exec [B "all"; B "atom_dump"; B "watch"] 0 [] = ([B "atom_dump"], Ok 3)
  /\ ex_exec [B "nothing"; B "watch"] 0 [] = ([B "watch"], Ok 0).
Proof. split; [vm_compute; reflexivity|]. split; vm_compute; reflexivity. Qed.
Theorem C49_refuted : exists rules w, In (B "nothing") rules /\
  find_rule (fun _ _ => None) (fun w _ _ => (w, CmdError)) (fun w _ _ => (w, 1)) (fun w _ _ => (w, 1)) ex_helper (B "nothing") = None /\
  ex_exec rules 0 [] = (w, Ok 0).
Proof. exists [B "nothing"; B "watch"], [B "watch"]. split; [left; reflexivity|]. split; vm_compute; reflexivity. Qed.
Print Assumptions C49_refuted.
