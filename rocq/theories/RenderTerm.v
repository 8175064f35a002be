(* The renderer always terminates: a lexicographic measure over the statements of
   the template. *)
From Verif Require Import Base Utils Trie Template Renderer.

(* ---- a lexicographic order on vectors of numbers with infinity (None) ---- *)

Definition olt (a b : option nat) : Prop :=
  match a, b with Some x, Some y => x < y | Some _, None => True | None, _ => False end.
Definition ole (a b : option nat) : Prop := a = b \/ olt a b.

Lemma olt_wf : well_founded olt.
Proof.
  assert (H : forall n x, x < n -> Acc olt (Some x)).
  { induction n as [|n IH]; intros x Hx; [lia|]. constructor. intros [y|] Hy; [|destruct Hy].
    cbn in Hy. apply IH. lia. }
  intros [x|]; [apply (H (S x)); lia|]. constructor. intros [y|] Hy; [apply (H (S y)); lia|destruct Hy].
Qed.

Inductive lexlt : list (option nat) -> list (option nat) -> Prop :=
| LexHead a b u v : olt a b -> length u = length v -> lexlt (a :: u) (b :: v)
| LexTail a u v : lexlt u v -> lexlt (a :: u) (a :: v).

Lemma lexlt_length u v : lexlt u v -> length u = length v.
Proof. induction 1; cbn; congruence. Qed.

Lemma lexlt_acc n : forall v, length v = n -> Acc lexlt v.
Proof.
  induction n as [|n IH]; intros v Hv.
  - destruct v; [|discriminate]. constructor. intros u Hu. inversion Hu.
  - destruct v as [|a v]; [discriminate|]. injection Hv as Hv. revert v Hv.
    induction a as [a IHa] using (well_founded_induction olt_wf). intros v Hv.
    induction (IH v Hv) as [v _ IHv]. constructor. intros u Hu. inversion Hu; subst.
    + apply IHa; [assumption|congruence].
    + apply IHv; [assumption|]. match goal with H : lexlt _ _ |- _ => rewrite (lexlt_length H) end. reflexivity.
Qed.

(* pointwise smaller up to a place where it is strictly smaller *)
Lemma lexlt_at (f g : nat -> option nat) n : forall k j, k <= j < k + n ->
  (forall i, k <= i < j -> ole (f i) (g i)) -> olt (f j) (g j) ->
  lexlt (map f (seq k n)) (map g (seq k n)).
Proof.
  induction n as [|n IH]; intros k j Hj Hle Hlt; [lia|]. cbn [seq map].
  destruct (Nat.eq_dec k j) as [->|Hne].
  - apply LexHead; [assumption|]. rewrite !map_length. reflexivity.
  - destruct (Hle k) as [E|E]; [lia| |].
    + rewrite E. apply LexTail. apply (IH (S k) j); [lia| |assumption]. intros i Hi. apply Hle. lia.
    + apply LexHead; [assumption|]. rewrite !map_length. reflexivity.
Qed.

(* ---- where the skip loops stop ---- *)

Lemma skip_to_ge ty l : forall p q, skip_to ty l p = Ok q -> p <= q.
Proof.
  induction l as [|n l IH]; intros p q H; [discriminate|]. cbn in H.
  destruct (ntype_eqb (n_type n) ty); [injection H as <-; lia|]. apply IH in H. lia.
Qed.

Lemma skip_if_ge we l : forall p c q c' st, skip_if we l p c = Ok (q, c', st) -> p <= q.
Proof.
  induction l as [|n l IH]; intros p c q c' st H; [discriminate|]. cbn [skip_if] in H.
  destruct (n_type n);
    try (apply IH in H; lia).
  - destruct (we && Nat.eqb c 0); [injection H as <- <- <-; lia|apply IH in H; lia].
  - destruct (Nat.ltb 0 c); [apply IH in H; lia|injection H as <- <- <-; lia].
Qed.

Lemma skip_if_stop we l : forall p c q c' st, skip_if we l p c = Ok (q, c', st) ->
  exists n, nth_error l (q - p) = Some n /\ (if st then n_type n = TElse /\ we = true else n_type n = TEndif).
Proof.
  induction l as [|n l IH]; intros p c q c' st H; [discriminate|]. cbn [skip_if] in H.
  assert (Hgo : forall c0, skip_if we l (p + 1) c0 = Ok (q, c', st) ->
    exists n0, nth_error (n :: l) (q - p) = Some n0 /\ (if st then n_type n0 = TElse /\ we = true else n_type n0 = TEndif)).
  { intros c0 H0. pose proof (skip_if_ge H0). destruct (IH _ _ _ _ _ H0) as (n0 & Hn & Ht). exists n0.
    replace (q - p) with (S (q - (p + 1))) by lia. auto. }
  destruct (n_type n) eqn:E; try (eapply Hgo; exact H).
  - destruct (we && Nat.eqb c 0) eqn:Ec; [|eapply Hgo; exact H].
    injection H as <- <- <-. exists n. rewrite Nat.sub_diag. apply andb_true_iff in Ec. destruct Ec. auto.
  - destruct (Nat.ltb 0 c); [eapply Hgo; exact H|]. injection H as <- <- <-. exists n. rewrite Nat.sub_diag. auto.
Qed.

#[local] Arguments B : simpl never.

Section Term.
Variable convert : bytes -> bytes -> option bytes.
Variable funcs : list (bytes * (vars -> vars)).
Variable tmpl : list tnode.
Variable sources : list vars.
Variable listing : bool.
Notation step := (r_step convert funcs tmpl sources listing).
Notation loop := (r_loop convert funcs tmpl sources listing).

Definition type_at (i : nat) : ntype := match nth_error tmpl i with Some n => n_type n | None => TContent end.

(* the rounds left of the loop that the statement at [i] opened; None when it is not open *)
Definition open (s : rst) (i : nat) : option nat :=
  match type_at i with
  | TForeach => match r_for s with
                | Some (p, _, l) => if Nat.eqb p i then Some (length l) else None
                | None => None
                end
  | TBlock => match r_lstart s, r_cur s with
              | Some p, _ :: _ => if Nat.eqb p i then Some (length (r_cur s)) else None
              | _, _ => None
              end
  | _ => Some 0
  end.
Definition comp (s : rst) (i : nat) : option nat :=
  if Nat.ltb (r_pos s) i then None
  else match open s i with
       | Some k => Some k
       | None => if Nat.eqb (r_pos s) i then None else Some 0
       end.
Definition measure (s : rst) (i : nat) : option nat :=
  if Nat.ltb i (length tmpl) then comp s i else Some (length tmpl - r_pos s).
Definition vec (s : rst) : list (option nat) := map (measure s) (seq 0 (S (length tmpl))).

(* loops point to their opening statements *)
Definition loops_ok (s : rst) : Prop :=
  (forall p n l, r_for s = Some (p, n, l) -> type_at p = TForeach) /\
  (forall p, r_lstart s = Some p -> type_at p = TBlock /\ listing = true).

Lemma ole_zero x : ole (Some 0) x.
Proof. destruct x as [[|k]|]; [left; reflexivity|right; cbn; lia|right; exact I]. Qed.
Lemma ole_top x : ole x None.
Proof. destruct x; [right; exact I|left; reflexivity]. Qed.

Lemma comp_le s s' i : i < r_pos s' -> r_pos s < i \/ open s' i = open s i \/ open s' i = None ->
  ole (comp s' i) (comp s i).
Proof.
  intros Hi H. unfold comp. destruct (Nat.ltb_spec (r_pos s') i); [lia|].
  destruct (Nat.eqb_spec (r_pos s') i); [lia|].
  destruct (Nat.ltb_spec (r_pos s) i); [apply ole_top|]. destruct H as [H|[->| ->]]; [lia| |apply ole_zero].
  destruct (open s i); [left; reflexivity|]. apply ole_zero.
Qed.

(* same loops, further on *)
Lemma forward s s' : r_pos s < length tmpl -> r_pos s < r_pos s' ->
  (forall i, open s' i = open s i \/ open s' i = None) -> lexlt (vec s') (vec s).
Proof.
  intros Hp Hlt Ho. apply (@lexlt_at _ _ _ 0 (length tmpl)); [lia| |].
  - intros i Hi. unfold measure. destruct (Nat.ltb_spec i (length tmpl)); [|lia].
    destruct (Nat.ltb_spec i (r_pos s')); [apply comp_le; auto|].
    unfold comp at 2. destruct (Nat.ltb_spec (r_pos s) i); [apply ole_top|lia].
  - unfold measure. rewrite Nat.ltb_irrefl. cbn. lia.
Qed.

(* one round less of the loop opened at [j], at any distance *)
Lemma round s s' j : j < length tmpl -> j <= r_pos s' ->
  (forall i, i <> j -> open s' i = open s i \/ open s' i = None) ->
  (exists k, open s' j = Some k /\ (r_pos s < j \/ (r_pos s = j /\ open s j = None) \/ exists k', open s j = Some k' /\ k < k')) ->
  lexlt (vec s') (vec s).
Proof.
  intros Hj Hp Ho (k & E & Hk). apply (@lexlt_at _ _ _ 0 j); [lia| |].
  - intros i Hi. unfold measure. destruct (Nat.ltb_spec i (length tmpl)); [|lia].
    apply comp_le; [lia|]. right. apply Ho. lia.
  - unfold measure. destruct (Nat.ltb_spec j (length tmpl)); [|lia]. unfold comp.
    destruct (Nat.ltb_spec (r_pos s') j); [lia|]. rewrite E.
    destruct (Nat.ltb_spec (r_pos s) j); [exact I|]. destruct Hk as [Hk|[[E1 E2]|(k' & E1 & E2)]]; [lia| |].
    + rewrite E2, E1, Nat.eqb_refl. exact I.
    + rewrite E1. exact E2.
Qed.

Lemma type_at_some i n : nth_error tmpl i = Some n -> type_at i = n_type n.
Proof. intro H. unfold type_at. rewrite H. reflexivity. Qed.
Lemma nth_lt i (n : tnode) : nth_error tmpl i = Some n -> i < length tmpl.
Proof. intro H. apply nth_error_Some. congruence. Qed.
Lemma type_at_lt i : type_at i <> TContent -> i < length tmpl.
Proof. unfold type_at. destruct (nth_error tmpl i) eqn:E; [intros _; apply (nth_lt E)|congruence]. Qed.

Lemma open_same s s' : r_for s' = r_for s -> r_lstart s' = r_lstart s -> r_cur s' = r_cur s ->
  forall i, open s' i = open s i \/ open s' i = None.
Proof. intros E1 E2 E3 i. left. unfold open. rewrite E1, E2, E3. reflexivity. Qed.
Lemma loops_same s s' : loops_ok s -> r_for s' = r_for s -> r_lstart s' = r_lstart s -> loops_ok s'.
Proof. intros [H1 H2] E1 E2. split; [rewrite E1; exact H1|rewrite E2; exact H2]. Qed.

Definition progress (s s' : rst) : Prop := loops_ok s' /\ lexlt (vec s') (vec s).

Lemma plain s s' : loops_ok s -> r_pos s < length tmpl -> r_pos s < r_pos s' -> r_for s' = r_for s ->
  r_lstart s' = r_lstart s -> r_cur s' = r_cur s -> progress s s'.
Proof.
  intros H Hp Hlt E1 E2 E3. split; [apply (loops_same H E1 E2)|]. apply forward; auto. apply open_same; auto.
Qed.

Lemma skip_block_progress s0 s s' : loops_ok s0 -> r_pos s0 < length tmpl -> r_pos s = r_pos s0 ->
  r_for s = r_for s0 -> r_lstart s = r_lstart s0 -> r_cur s = r_cur s0 -> skip_block tmpl s = Ok s' -> progress s0 s'.
Proof.
  intros H Hp E0 E1 E2 E3 Hs. unfold skip_block, rbind in Hs.
  destruct (skip_to TEndblock _ _) as [q| |] eqn:E; try discriminate. injection Hs as <-.
  apply skip_to_ge in E. apply plain; cbn; auto. lia.
Qed.

Ltac stepplain := match goal with H : Ok _ = Ok _ |- _ => injection H as <- end;
  apply plain; cbn; auto; lia.

Lemma step_progress s n s' : loops_ok s -> nth_error tmpl (r_pos s) = Some n -> step s n = Ok s' -> progress s s'.
Proof.
  intros Hok Hn Hs. pose proof (nth_lt Hn) as Hp. pose proof (type_at_some Hn) as Ht. unfold r_step in Hs.
  assert (HIF : step_if convert funcs tmpl s n = Ok s' -> progress s s').
  { clear Hs. intro Hs. unfold step_if, rbind in Hs.
    destruct (eval_cond convert funcs (r_set_if s 0 (r_velse s)) n) as [[ev g]| |]; try discriminate.
    destruct ev; [stepplain|]. cbn in Hs.
    destruct (skip_if true _ _ _) as [[[q c] st]| |] eqn:E; try discriminate. apply skip_if_ge in E.
    destruct st; stepplain. }
  destruct (n_type n) eqn:Et; try (exact (HIF Hs)).
  - (* else *)
    unfold step_else, rbind in Hs. cbn in Hs. destruct (r_velse s); [stepplain|].
    destruct (skip_if false _ _ _) as [[[q c] st]| |] eqn:E; try discriminate. apply skip_if_ge in E. stepplain.
  - stepplain.
  - (* foreach *)
    unfold step_foreach, rbind in Hs. destruct (r_for s) as [f|] eqn:Ef; [stepplain|].
    assert (Hskip : match skip_to TEndforeach (skipn (r_pos s) tmpl) (r_pos s) with
                    | Ok q => Ok (r_set_pos s (q + 1)) | UB => UB | OutOfFuel => OutOfFuel end = Ok s' -> progress s s').
    { destruct (skip_to TEndforeach _ _) as [q| |] eqn:E; try discriminate. intro H. apply skip_to_ge in E. stepplain. }
    destruct (n_d0 n) as [v|]; [|exact (Hskip Hs)].
    destruct (split_list_variable v (r_global s) (r_local s)) as [|x l]; [exact (Hskip Hs)|].
    injection Hs as <-. split.
    + split; [|apply Hok]. cbn. intros p n0 l0 H. injection H as <- _ _. exact Ht.
    + apply (@round s _ (r_pos s)); auto.
      * cbn. lia.
      * intros i Hi. unfold open. cbn. rewrite Ef. destruct (type_at i); auto. 
        destruct (Nat.eqb_spec (r_pos s) i); [congruence|auto].
      * unfold open. cbn. rewrite Ht, Ef, Nat.eqb_refl. eexists. split; [reflexivity|]. right. left. split; reflexivity.
  - (* endforeach *)
    injection Hs as <-. unfold step_endforeach. 
    assert (Hcl : progress s (next (r_set_for s None))).
    { split; [split; [discriminate|apply Hok]|]. apply forward; cbn; auto; [lia|].
      intro i. unfold open. cbn. destruct (type_at i); auto. }
    destruct (r_for s) as [[[p v] l]|] eqn:Ef; [|exact Hcl].
    destruct l as [|x [|y l]]; try exact Hcl. destruct Hok as [H1 H2]. pose proof (H1 _ _ _ Ef) as Hp1. split.
    + split; [|exact H2]. cbn. intros p0 n0 l0 H. injection H as <- _ _. exact Hp1.
    + apply (@round s _ p).
      * apply type_at_lt. congruence.
      * cbn. lia.
      * intros i Hi. unfold open. cbn. destruct (type_at i); auto. destruct (Nat.eqb_spec p i); [congruence|auto].
      * unfold open. cbn. rewrite Hp1, Ef, Nat.eqb_refl. eexists. split; [reflexivity|]. right. right. eexists. split; [reflexivity|]. cbn. lia.
  - (* block *)
    destruct (n_d0 n) as [v|]; [|discriminate]. unfold step_block in Hs. cbn in Hs.
    assert (Hskip : forall s1, r_pos s1 = r_pos s -> r_for s1 = r_for s -> r_lstart s1 = r_lstart s -> r_cur s1 = r_cur s ->
      skip_block tmpl s1 = Ok s' -> progress s s') by (intros; eapply skip_block_progress; eauto).
    destruct (beq v (B "entry")).
    { destruct listing eqn:El; [eapply Hskip; [..|exact Hs]; reflexivity|]. injection Hs as <-.
      destruct Hok as [H1 H2]. 
      assert (r_lstart s = None) as En by (destruct (r_lstart s) as [p|] eqn:E; [destruct (H2 p); congruence|reflexivity]).
      split; [split; [exact H1|cbn; rewrite En; discriminate]|].
      apply forward; cbn; auto; [lia|]. intro i. unfold open. cbn. rewrite En. auto. }
    destruct (beq v (B "listing_entry")).
    { destruct (r_entries s) as [|[e|] rest]; [eapply Hskip; [..|exact Hs]; reflexivity| |eapply Hskip; [..|exact Hs]; reflexivity].
      destruct listing eqn:El; [|eapply Hskip; [..|exact Hs]; reflexivity].
      injection Hs as <-. split; [rewrite <- El in *; apply (loops_same Hok); reflexivity|].
      apply forward; cbn; auto; [lia|]. intro i. unfold open. cbn. destruct (type_at i); auto. destruct (r_lstart s); auto. }
    destruct (beq v (B "listing") || beq v (B "listing_empty") || beq v (B "listing_once")); [|stepplain].
    destruct (negb listing) eqn:El; [eapply Hskip; [..|exact Hs]; reflexivity|].
    destruct (beq v (B "listing_empty")).
    { destruct sources; [stepplain|eapply Hskip; [..|exact Hs]; reflexivity]. }
    destruct (beq v (B "listing")); [|stepplain].
    destruct sources as [|x xs]; [eapply Hskip; [..|exact Hs]; reflexivity|].
    destruct (r_cur s) as [|c cs] eqn:Ec; [|stepplain]. injection Hs as <-. destruct Hok as [H1 H2]. split.
    + split; [exact H1|]. cbn. intros p H. injection H as <-. split; [exact Ht|]. destruct listing; [reflexivity|discriminate].
    + apply (@round s _ (r_pos s)); auto.
      * cbn. lia.
      * intros i Hi. unfold open. cbn. rewrite Ec. destruct (type_at i); auto.
        destruct (Nat.eqb_spec (r_pos s) i); [congruence|]. destruct (r_lstart s); auto.
      * unfold open. cbn. rewrite Ht, Ec, Nat.eqb_refl. eexists. split; [reflexivity|].
        right. left. split; [reflexivity|]. destruct (r_lstart s); reflexivity.
  - (* endblock *)
    injection Hs as <-. unfold step_endblock. cbn. destruct Hok as [H1 H2].
    destruct (r_lstart s) as [p|] eqn:El.
    2:{ apply plain; cbn; auto; try lia. split; [exact H1|rewrite El; discriminate]. }
    destruct (r_cur s) as [|c [|c' cs]] eqn:Ec.
    + apply plain; cbn; auto; try lia. split; [exact H1|rewrite El; exact H2].
    + split; [split; [exact H1|discriminate]|]. apply forward; cbn; auto; [lia|].
      intro i. unfold open. cbn. destruct (type_at i); auto.
    + destruct (H2 _ eq_refl) as [H3 H4]. split; [split; [exact H1|cbn; intros p' H; injection H as <-; auto]|].
      apply (@round s _ p).
      * apply type_at_lt. congruence.
      * cbn. lia.
      * intros i Hi. unfold open. cbn. rewrite El, Ec. destruct (type_at i); auto. destruct (Nat.eqb_spec p i); [congruence|auto].
      * unfold open. cbn. rewrite H3, El, Ec, Nat.eqb_refl. eexists. split; [reflexivity|]. right. right. eexists. split; [reflexivity|]. cbn. lia.
  - (* variable *)
    destruct (n_d0 n) as [v|]; [|stepplain]. unfold rbind in Hs. destruct (r_var convert funcs s v) as [[x g]| |]; try discriminate.
    stepplain.
  - destruct (n_d0 n); stepplain.
Qed.

Lemma loops_init entries config : loops_ok (r_init entries config).
Proof. split; cbn; discriminate. Qed.

(* no single step runs out of fuel *)
Lemma skip_to_fuel ty l : forall p, skip_to ty l p <> OutOfFuel.
Proof. induction l as [|n l IH]; intro p; [discriminate|]. cbn. destruct (ntype_eqb (n_type n) ty); [discriminate|apply IH]. Qed.
Lemma skip_if_fuel we l : forall p c, skip_if we l p c <> OutOfFuel.
Proof.
  induction l as [|n l IH]; intros p c; [discriminate|]. cbn [skip_if]. destruct (n_type n); try apply IH.
  - destruct (we && Nat.eqb c 0); [discriminate|apply IH].
  - destruct (Nat.ltb 0 c); [apply IH|discriminate].
Qed.
Lemma format_variable_fuel name g l fn fi : format_variable convert funcs name g l fn fi <> OutOfFuel.
Proof.
  unfold format_variable. destruct (get_variable name g l); [discriminate|].
  destruct (beq name (B "FOREACH_ITEM")); [discriminate|].
  destruct (beq name (B "FOREACH_VALUE")); [destruct fn, fi; discriminate|].
  destruct (Nat.eqb (length name) 0); [discriminate|]. destruct (split_size name) as [v sz].
  match goal with |- context [let '(_, _) := ?X in _] => destruct X as [[val|] g'] end; discriminate.
Qed.
Lemma eval_cond_fuel s n : eval_cond convert funcs s n <> OutOfFuel.
Proof.
  unfold eval_cond, rbind.
  assert (H : forall s v, r_var convert funcs s v <> OutOfFuel) by (intros; apply format_variable_fuel).
  destruct (n_d0 n) as [v|]; [pose proof (H s v); destruct (r_var convert funcs s v) as [[d g1]| |]; try congruence; try discriminate|].
  - destruct (n_op n); try discriminate; (destruct (n_d1 n) as [d1|]; [|destruct d; discriminate];
      match goal with |- context [if ?X then Ok _ else _] => destruct X end;
      [destruct d; discriminate|];
      match goal with |- context [r_var convert funcs ?A ?X] => pose proof (H A X); destruct (r_var convert funcs A X) as [[d2 g2]| |]; try congruence; discriminate end).
  - destruct (n_op n); try discriminate; (destruct (n_d1 n) as [d1|]; [|discriminate];
      match goal with |- context [if ?X then Ok _ else _] => destruct X end;
      [discriminate|];
      match goal with |- context [r_var convert funcs ?A ?X] => pose proof (H A X); destruct (r_var convert funcs A X) as [[d2 g2]| |]; try congruence; discriminate end).
Qed.
Lemma step_fuel s n : step s n <> OutOfFuel.
Proof.
  assert (HB : forall s, skip_block tmpl s <> OutOfFuel).
  { intro s1. unfold skip_block, rbind. pose proof (@skip_to_fuel TEndblock (skipn (r_pos s1) tmpl) (r_pos s1)).
    destruct (skip_to TEndblock _ _); congruence. }
  assert (HIF : step_if convert funcs tmpl s n <> OutOfFuel).
  { unfold step_if, rbind. pose proof (@eval_cond_fuel (r_set_if s 0 (r_velse s)) n).
    destruct (eval_cond _ _ _ _) as [[ev g]| |]; try congruence. destruct ev; [discriminate|].
    match goal with |- context [skip_if true ?A ?X ?C] => pose proof (@skip_if_fuel true A X C); destruct (skip_if true A X C) as [[[q c] st]| |] end; try congruence.
    destruct st; discriminate. }
  unfold r_step. destruct (n_type n); try exact HIF; try discriminate.
  - unfold step_else, rbind. cbn [r_set_if r_velse]. destruct (r_velse s); [discriminate|].
    match goal with |- context [skip_if false ?A ?X ?C] => pose proof (@skip_if_fuel false A X C); destruct (skip_if false A X C) as [[[q c] st]| |] end; congruence.
  - unfold step_foreach, rbind. destruct (r_for s); [discriminate|].
    pose proof (@skip_to_fuel TEndforeach (skipn (r_pos s) tmpl) (r_pos s)).
    destruct (n_d0 n) as [v|]; [destruct (split_list_variable _ _ _); [|discriminate]|]; destruct (skip_to _ _ _); congruence.
  - destruct (n_d0 n) as [v|]; [|discriminate]. unfold step_block. cbn.
    destruct (beq v (B "entry")); [destruct listing; [apply HB|discriminate]|].
    destruct (beq v (B "listing_entry")); [destruct (r_entries s) as [|[e|] rest]; [apply HB| |apply HB]; destruct listing; [discriminate|apply HB]|].
    destruct (beq v (B "listing") || beq v (B "listing_empty") || beq v (B "listing_once")); [|discriminate].
    destruct (negb listing); [apply HB|]. destruct (beq v (B "listing_empty")); [destruct sources; [discriminate|apply HB]|].
    destruct (beq v (B "listing")); [|discriminate]. destruct sources; [apply HB|discriminate].
  - destruct (n_d0 n) as [v|]; [|discriminate]. unfold rbind. pose proof (@format_variable_fuel v (r_global s) (r_local s) (r_fname s) (r_fitem s)).
    unfold r_var. destruct (format_variable _ _ _ _ _ _ _) as [[x g]| |]; congruence.
Qed.

(* more fuel does not change a result *)
Lemma loop_fuel f : forall s f', f <= f' -> loop f s <> OutOfFuel -> loop f' s = loop f s.
Proof.
  induction f as [|f IH]; intros s f' Hf H; destruct f' as [|f']; try lia; cbn in *; try reflexivity.
  - destruct (nth_error tmpl (r_pos s)); [congruence|reflexivity].
  - destruct (nth_error tmpl (r_pos s)) as [n|]; [|reflexivity]. unfold rbind in *.
    destruct (step s n) as [s'| |]; try reflexivity. apply IH; [lia|assumption].
Qed.

(* the loop ends *)
Lemma loop_ends s : loops_ok s -> exists f, loop f s <> OutOfFuel.
Proof.
  intro Hok. remember (vec s) as v eqn:Ev. 
  assert (Hacc : Acc lexlt v) by (apply (@lexlt_acc (length v)); reflexivity).
  revert s Hok Ev. induction Hacc as [v _ IH]. intros s Hok ->.
  destruct (nth_error tmpl (r_pos s)) as [n|] eqn:En.
  - destruct (step s n) as [s'| |] eqn:Es.
    + destruct (step_progress Hok En Es) as [Hok' Hlt]. destruct (IH _ Hlt _ Hok' eq_refl) as (f & Hf).
      exists (S f). cbn. rewrite En. unfold rbind. rewrite Es. exact Hf.
    + exists 1. cbn. rewrite En. unfold rbind. rewrite Es. discriminate.
    + destruct (step_fuel Es).
  - exists 0. cbn. rewrite En. discriminate.
Qed.
End Term.
