From Coq Require Import Permutation.
From Verif Require Import Base Trie.

(* ---- specification: a history of insertions read as a map ---- *)
Section Spec.
Variable V : Type.
(* the value of the last insertion of key k *)
Fixpoint last_value (h : list (bytes * V)) (k : bytes) : option V :=
  match h with
  | [] => None
  | (k', v) :: h' =>
      match last_value h' k with
      | Some x => Some x
      | None => if beq k' k then Some v else None
      end
  end.
Definition keys_ok (h : list (bytes * V)) : Prop := Forall (fun kv => no_nul (fst kv)) h.
End Spec.

Section Proofs.
Variable V : Type.
Implicit Types (t : trie V) (k : bytes).

Lemma insert_nil c k v :
  insert_go (c :: k) v (Nil : trie V) =
  if c == NUL then (Node c (Some v) Nil Nil, [])
  else let '(ch, fr) := insert_go k v Nil in (Node c None ch Nil, fr).
Proof. reflexivity. Qed.

Lemma insert_node c k v c0 d (ch nx : trie V) :
  insert_go (c :: k) v (Node c0 d ch nx) =
  if c0 == c then
    if c == NUL then (Node c0 (Some v) ch nx, match d with Some o => [o] | None => [] end)
    else let '(ch', fr) := insert_go k v ch in (Node c0 d ch' nx, fr)
  else let '(nx', fr) := insert_go (c :: k) v nx in (Node c0 d ch nx', fr).
Proof. reflexivity. Qed.

Lemma lookup_nil c k : lookup_go (c :: k) (Nil : trie V) = None.
Proof. reflexivity. Qed.
Lemma lookup_node c k c0 d (ch nx : trie V) :
  lookup_go (c :: k) (Node c0 d ch nx) =
  if c0 == c then (if c0 == NUL then d else lookup_go k ch) else lookup_go (c :: k) nx.
Proof. reflexivity. Qed.
Lemma lookup_go_Nil k : lookup_go k (Nil : trie V) = None.
Proof. destruct k; reflexivity. Qed.

Lemma cons_app_nul (c : ascii) k : (c :: k) ++ [NUL] = c :: (k ++ [NUL]).
Proof. reflexivity. Qed.

(* lookup after insertion, on keys extended with NUL *)
Lemma lookup_insert_same k v : no_nul k -> forall t,
  lookup_go (k ++ [NUL]) (fst (insert_go (k ++ [NUL]) v t)) = Some v.
Proof.
  induction k as [|c k IH]; intros Hk t.
  - simpl app. induction t as [|c0 d ch _ nx IHn].
    + reflexivity.
    + rewrite insert_node. destruct (c0 == NUL) eqn:E.
      * simpl. rewrite E. reflexivity.
      * destruct (insert_go [NUL] v nx) as [nx' fr] eqn:En. simpl fst in *.
        rewrite lookup_node, E. exact IHn.
  - apply no_nul_cons in Hk. destruct Hk as [Hc Hk].
    apply eqb_false in Hc. rewrite !cons_app_nul.
    induction t as [|c0 d ch _ nx IHn].
    + rewrite insert_nil, Hc. specialize (IH Hk Nil).
      destruct (insert_go (k ++ [NUL]) v Nil) as [ch' fr]. simpl fst in *.
      rewrite lookup_node, eqb_refl, Hc. exact IH.
    + rewrite insert_node. destruct (c0 == c) eqn:E.
      * rewrite Hc. specialize (IH Hk ch).
        destruct (insert_go (k ++ [NUL]) v ch) as [ch' fr]. simpl fst in *.
        rewrite lookup_node, E. apply eqb_true in E. subst c0. rewrite Hc. exact IH.
      * destruct (insert_go (c :: k ++ [NUL]) v nx) as [nx' fr] eqn:En. simpl fst in *.
        rewrite lookup_node, E. exact IHn.
Qed.

Lemma lookup_insert_other k v : no_nul k -> forall k' t, no_nul k' -> k <> k' ->
  lookup_go (k' ++ [NUL]) (fst (insert_go (k ++ [NUL]) v t)) = lookup_go (k' ++ [NUL]) t.
Proof.
  induction k as [|c k IH]; intros Hk k' t Hk' Hne.
  - destruct k' as [|c' k']; [congruence|].
    apply no_nul_cons in Hk'. destruct Hk' as [Hc' Hk'].
    simpl app. induction t as [|c0 d ch _ nx IHn].
    + rewrite insert_nil. simpl. destruct (NUL == c') eqn:E; [|reflexivity].
      apply eqb_true in E. congruence.
    + rewrite insert_node. destruct (c0 == NUL) eqn:E.
      * simpl fst. rewrite !lookup_node. apply eqb_true in E. subst c0.
        destruct (NUL == c') eqn:E2; [|reflexivity].
        apply eqb_true in E2. congruence.
      * destruct (insert_go [NUL] v nx) as [nx' fr] eqn:En. simpl fst in *.
        rewrite !lookup_node. destruct (c0 == c'); [reflexivity|exact IHn].
  - apply no_nul_cons in Hk. destruct Hk as [Hc Hk].
    apply eqb_false in Hc. rewrite cons_app_nul.
    destruct k' as [|c' k'].
    + (* k' empty *)
      simpl app. induction t as [|c0 d ch _ nx IHn].
      * rewrite insert_nil, Hc. destruct (insert_go (k ++ [NUL]) v Nil) as [ch' fr].
        simpl. rewrite Hc. reflexivity.
      * rewrite insert_node. destruct (c0 == c) eqn:E.
        -- rewrite Hc. destruct (insert_go (k ++ [NUL]) v ch) as [ch' fr]. simpl fst.
           rewrite !lookup_node. apply eqb_true in E. subst. rewrite Hc. reflexivity.
        -- destruct (insert_go (c :: k ++ [NUL]) v nx) as [nx' fr] eqn:En. simpl fst in *.
           rewrite !lookup_node. destruct (c0 == NUL); [reflexivity|exact IHn].
    + apply no_nul_cons in Hk'. destruct Hk' as [Hc' Hk'].
      rewrite cons_app_nul.
      destruct (c == c') eqn:Ecc.
      * apply eqb_true in Ecc. subst c'.
        assert (Hkk : k <> k') by congruence.
        induction t as [|c0 d ch _ nx IHn].
        -- rewrite insert_nil, Hc. specialize (IH Hk k' Nil Hk' Hkk).
           destruct (insert_go (k ++ [NUL]) v Nil) as [ch' fr]. simpl fst in *.
           rewrite lookup_node, eqb_refl, Hc, IH. rewrite lookup_go_Nil. reflexivity.
        -- rewrite insert_node. destruct (c0 == c) eqn:E.
           ++ rewrite Hc. specialize (IH Hk k' ch Hk' Hkk).
              destruct (insert_go (k ++ [NUL]) v ch) as [ch' fr]. simpl fst in *.
              rewrite !lookup_node, E. apply eqb_true in E. subst. rewrite Hc. exact IH.
           ++ destruct (insert_go (c :: k ++ [NUL]) v nx) as [nx' fr] eqn:En. simpl fst in *.
              rewrite !lookup_node, E. exact IHn.
      * induction t as [|c0 d ch _ nx IHn].
        -- rewrite insert_nil, Hc. destruct (insert_go (k ++ [NUL]) v Nil) as [ch' fr].
           simpl fst. rewrite lookup_node, Ecc. reflexivity.
        -- rewrite insert_node. destruct (c0 == c) eqn:E.
           ++ rewrite Hc. destruct (insert_go (k ++ [NUL]) v ch) as [ch' fr]. simpl fst.
              rewrite !lookup_node. apply eqb_true in E. subst. rewrite Ecc. reflexivity.
           ++ destruct (insert_go (c :: k ++ [NUL]) v nx) as [nx' fr] eqn:En. simpl fst in *.
              rewrite !lookup_node. destruct (c0 == c'); [reflexivity|exact IHn].
Qed.

(* the map law used everywhere else *)
Lemma trie_lookup_insert t k v k' : no_nul k -> no_nul k' ->
  trie_lookup (trie_insert t k v) k' = if beq k k' then Some v else trie_lookup t k'.
Proof.
  intros Hk Hk'. unfold trie_lookup, trie_insert, trie_insert_f.
  destruct (beq_spec k k') as [<-|Hne].
  - apply lookup_insert_same. exact Hk.
  - apply lookup_insert_other; assumption.
Qed.

Lemma trie_lookup_new k : trie_lookup (trie_new : trie V) k = None.
Proof. unfold trie_lookup, trie_new. apply lookup_go_Nil. Qed.

Lemma trie_inserts_lookup (h : list (bytes * V)) : forall t k,
  keys_ok h -> no_nul k ->
  trie_lookup (trie_inserts h t) k =
  match last_value h k with Some v => Some v | None => trie_lookup t k end.
Proof.
  induction h as [|[k0 v0] h IH]; intros t k Hh Hk; [reflexivity|].
  inversion Hh as [|? ? Hk0 Hh']; subst. simpl in Hk0.
  change (trie_inserts ((k0, v0) :: h) t) with (trie_inserts h (trie_insert t k0 v0)).
  rewrite IH by assumption. simpl last_value.
  destruct (last_value h k) as [x|]; [reflexivity|].
  rewrite trie_lookup_insert by assumption. destruct (beq k0 k); reflexivity.
Qed.

Lemma trie_history (h : list (bytes * V)) k :
  keys_ok h -> no_nul k ->
  trie_lookup (trie_inserts h trie_new) k = last_value h k.
Proof.
  intros Hh Hk. rewrite trie_inserts_lookup by assumption.
  rewrite trie_lookup_new. destruct (last_value h k); reflexivity.
Qed.

(* ---- well-formedness ---- *)
Fixpoint sib_keys t : list ascii :=
  match t with Nil => [] | Node c _ _ nx => c :: sib_keys nx end.

Fixpoint wf t : Prop :=
  match t with
  | Nil => True
  | Node c d ch nx =>
      (if c == NUL then d <> None /\ ch = Nil else d = None)
      /\ ~ In c (sib_keys nx) /\ wf ch /\ wf nx
  end.

Lemma insert_sib_keys c k v t x :
  In x (sib_keys (fst (insert_go (c :: k) v t))) -> x = c \/ In x (sib_keys t).
Proof.
  induction t as [|c0 d ch _ nx IHn].
  - rewrite insert_nil. destruct (c == NUL).
    + simpl. intuition.
    + destruct (insert_go k v Nil). simpl. intuition.
  - rewrite insert_node. destruct (c0 == c) eqn:E.
    + destruct (c == NUL).
      * simpl. intuition.
      * destruct (insert_go k v ch). simpl. intuition.
    + destruct (insert_go (c :: k) v nx) as [nx' fr]. simpl in *. intuition.
Qed.

Lemma insert_wf k v : no_nul k -> forall t, wf t -> wf (fst (insert_go (k ++ [NUL]) v t)).
Proof.
  induction k as [|c k IH]; intros Hk t Ht.
  - simpl app. induction t as [|c0 d ch _ nx IHn].
    + rewrite insert_nil, eqb_refl. simpl. repeat split; try tauto; discriminate.
    + rewrite insert_node. destruct Ht as (Hd & Hni & Hch & Hnx).
      destruct (c0 == NUL) eqn:E.
      * simpl. rewrite E. destruct Hd as [_ ->]. repeat split; try tauto; discriminate.
      * pose proof (@insert_sib_keys NUL [] v nx c0) as Hs.
        specialize (IHn Hnx).
        destruct (insert_go [NUL] v nx) as [nx' fr]. simpl fst in *. simpl. rewrite E.
        repeat split; try assumption.
        intro Hin. apply Hs in Hin. destruct Hin as [->|Hin]; [|contradiction].
        rewrite eqb_refl in E. discriminate.
  - apply no_nul_cons in Hk. destruct Hk as [Hc Hk].
    apply eqb_false in Hc. rewrite cons_app_nul.
    induction t as [|c0 d ch _ nx IHn].
    + rewrite insert_nil, Hc. specialize (IH Hk Nil I).
      destruct (insert_go (k ++ [NUL]) v Nil) as [ch' fr]. simpl in *. rewrite Hc. tauto.
    + rewrite insert_node. destruct Ht as (Hd & Hni & Hch & Hnx).
      destruct (c0 == c) eqn:E.
      * rewrite Hc. specialize (IH Hk ch Hch).
        destruct (insert_go (k ++ [NUL]) v ch) as [ch' fr]. simpl in *.
        apply eqb_true in E. subst. rewrite Hc in *. tauto.
      * pose proof (@insert_sib_keys c (k ++ [NUL]) v nx c0) as Hs.
        specialize (IHn Hnx).
        destruct (insert_go (c :: k ++ [NUL]) v nx) as [nx' fr]. simpl fst in *. simpl.
        repeat split; try assumption.
        intro Hin. apply Hs in Hin. destruct Hin as [->|Hin]; [|contradiction].
        rewrite eqb_refl in E. discriminate.
Qed.

Lemma trie_insert_wf t k v : no_nul k -> wf t -> wf (trie_insert t k v).
Proof. intros. apply insert_wf; assumption. Qed.

Lemma trie_inserts_wf (h : list (bytes * V)) : forall t,
  keys_ok h -> wf t -> wf (trie_inserts h t).
Proof.
  induction h as [|[k v] h IH]; intros t Hh Ht; [exact Ht|].
  inversion Hh; subst.
  change (trie_inserts ((k, v) :: h) t) with (trie_inserts h (trie_insert t k v)).
  apply IH; [assumption|]. apply trie_insert_wf; assumption.
Qed.

(* ---- iteration ---- *)
(* keys that foreach reports from t, relative to the accumulated prefix *)
Lemma foreach_prefix t : forall s,
  foreach_go t s = map (fun kv => (s ++ fst kv, snd kv)) (foreach_go t []).
Proof.
  induction t as [|c d ch IHc nx IHn]; intro s; [reflexivity|].
  simpl. rewrite (IHc (s ++ [c])), (IHc [c]), (IHn s), !map_app, !map_map. f_equal.
  - destruct (c == NUL); simpl; [rewrite app_nil_r|]; reflexivity.
  - f_equal. apply map_ext. intros [k0 v0]. simpl. rewrite <- app_assoc. reflexivity.
Qed.

Lemma foreach_node_eq c (d : option V) ch nx :
  trie_foreach (Node c d ch nx) =
  (if c == NUL then [([], d)] else [])
    ++ map (fun kv => (c :: fst kv, snd kv)) (trie_foreach ch)
    ++ trie_foreach nx.
Proof.
  unfold trie_foreach. simpl. rewrite (foreach_prefix ch [c]). reflexivity.
Qed.

(* first byte of every reported key is one of the sibling keys *)
Definition head_key (k : bytes) : ascii := match k with [] => NUL | c :: _ => c end.

Lemma foreach_head t : wf t -> forall k d, In (k, d) (trie_foreach t) ->
  In (head_key k) (sib_keys t).
Proof.
  induction t as [|c d0 ch IHc nx IHn]; intros Ht k d Hin; [inversion Hin|].
  rewrite foreach_node_eq in Hin. destruct Ht as (Hd & Hni & Hch & Hnx).
  apply in_app_or in Hin. destruct Hin as [Hin|Hin].
  - destruct (c == NUL) eqn:E; [|inversion Hin].
    destruct Hin as [Hin|[]]. inversion Hin; subst. simpl.
    apply eqb_true in E. auto.
  - apply in_app_or in Hin. destruct Hin as [Hin|Hin].
    + apply in_map_iff in Hin. destruct Hin as ([k1 d1] & Heq & _).
      inversion Heq; subst. simpl. auto.
    + simpl. right. eapply IHn; eassumption.
Qed.

Lemma foreach_no_nul t : wf t -> forall k d, In (k, d) (trie_foreach t) -> no_nul k.
Proof.
  induction t as [|c d0 ch IHc nx IHn]; intros Ht k d Hin; [inversion Hin|].
  rewrite foreach_node_eq in Hin. destruct Ht as (Hd & Hni & Hch & Hnx).
  apply in_app_or in Hin. destruct Hin as [Hin|Hin].
  - destruct (c == NUL) eqn:E; [|inversion Hin].
    destruct Hin as [Hin|[]]. inversion Hin; subst. apply no_nul_nil.
  - apply in_app_or in Hin. destruct Hin as [Hin|Hin].
    + apply in_map_iff in Hin. destruct Hin as ([k1 d1] & Heq & Hin).
      inversion Heq; subst. simpl. apply no_nul_cons. split.
      * destruct (c == NUL) eqn:E; [|apply eqb_false in E; exact E].
        destruct Hd as [_ ->]. inversion Hin.
      * eapply IHc; eassumption.
    + eapply IHn; eassumption.
Qed.

Lemma in_map_cons (c : ascii) (l : list (bytes * option V)) k d :
  In (k, d) (map (fun kv => (c :: fst kv, snd kv)) l) <->
  exists k1, k = c :: k1 /\ In (k1, d) l.
Proof.
  rewrite in_map_iff. split.
  - intros ([k1 d1] & Heq & Hin). inversion Heq; subst. eauto.
  - intros (k1 & -> & Hin). exists (k1, d). auto.
Qed.

Lemma foreach_lookup t : wf t -> forall k d,
  In (k, d) (trie_foreach t) <-> (no_nul k /\ exists v, d = Some v /\ trie_lookup t k = Some v).
Proof.
  intros Ht k d. split.
  - intro Hin. split; [eapply foreach_no_nul; eassumption|].
    revert k d Hin. induction t as [|c d0 ch IHc nx IHn]; intros k d Hin; [inversion Hin|].
    rewrite foreach_node_eq in Hin. destruct Ht as (Hd & Hni & Hch & Hnx).
    apply in_app_or in Hin. destruct Hin as [Hin|Hin].
    + destruct (c == NUL) eqn:E; [|inversion Hin].
      destruct Hin as [Hin|[]]. inversion Hin; subst.
      destruct Hd as [Hd _]. destruct d as [v|]; [|congruence].
      exists v. split; [reflexivity|]. unfold trie_lookup. simpl.
      rewrite E. reflexivity.
    + apply in_app_or in Hin. destruct Hin as [Hin|Hin].
      * apply in_map_cons in Hin. destruct Hin as (k1 & -> & Hin).
        destruct (IHc Hch _ _ Hin) as (v & -> & Hl).
        exists v. split; [reflexivity|]. unfold trie_lookup. rewrite cons_app_nul.
        rewrite lookup_node, eqb_refl.
        destruct (c == NUL) eqn:E; [|exact Hl].
        destruct Hd as [_ ->]. inversion Hin.
      * destruct (IHn Hnx _ _ Hin) as (v & -> & Hl).
        exists v. split; [reflexivity|].
        assert (Hh : In (head_key k) (sib_keys nx)) by (eapply foreach_head; eassumption).
        assert (Hc : (c == head_key k) = false).
        { apply eqb_false. intros ->. contradiction. }
        unfold trie_lookup in *. destruct k as [|c' k']; simpl app in *; simpl in Hc.
        -- rewrite lookup_node, Hc. exact Hl.
        -- rewrite lookup_node, Hc. exact Hl.
  - intros (Hk & v & -> & Hl). revert k Hk Hl.
    induction t as [|c d0 ch IHc nx IHn]; intros k Hk Hl.
    + unfold trie_lookup in Hl. rewrite lookup_go_Nil in Hl. discriminate.
    + rewrite foreach_node_eq. destruct Ht as (Hd & Hni & Hch & Hnx).
      unfold trie_lookup in Hl. destruct k as [|c' k'].
      * simpl app in Hl. rewrite lookup_node in Hl. destruct (c == NUL) eqn:E.
        -- apply in_or_app. left. simpl. left. cbn in Hl. rewrite Hl. reflexivity.
        -- apply in_or_app. right. apply in_or_app. right. apply IHn; assumption.
      * apply no_nul_cons in Hk. destruct Hk as [Hc' Hk].
        rewrite cons_app_nul, lookup_node in Hl. destruct (c == c') eqn:E.
        -- apply eqb_true in E. subst c'. pose proof Hc' as Hc2. apply eqb_false in Hc2.
           rewrite Hc2 in Hl. apply in_or_app. right. apply in_or_app. left.
           apply in_map_cons. exists k'. split; [reflexivity|]. apply IHc; assumption.
        -- apply in_or_app. right. apply in_or_app. right.
           apply IHn; [assumption| apply no_nul_cons; tauto | exact Hl].
Qed.

Lemma NoDup_app_intro (A : Type) (l1 l2 : list A) :
  NoDup l1 -> NoDup l2 -> (forall x, In x l1 -> ~ In x l2) -> NoDup (l1 ++ l2).
Proof.
  induction l1 as [|a l1 IH]; intros H1 H2 Hd; [exact H2|].
  inversion H1; subst. simpl. constructor.
  - rewrite in_app_iff. intros [H|H]; [contradiction|]. apply (Hd a); [left; reflexivity|exact H].
  - apply IH; try assumption. intros x Hx. apply Hd. right. exact Hx.
Qed.

Lemma foreach_nodup t : wf t -> NoDup (map fst (trie_foreach t)).
Proof.
  induction t as [|c d0 ch IHc nx IHn]; intro Ht; [constructor|].
  rewrite foreach_node_eq. destruct Ht as (Hd & Hni & Hch & Hnx).
  rewrite !map_app, map_map. simpl.
  assert (Hsub : forall k, In k (map fst (trie_foreach nx)) -> head_key k <> c).
  { intros k Hin Heq. apply in_map_iff in Hin. destruct Hin as ([k1 d1] & Hf & Hin).
    simpl in Hf. subst k1. apply foreach_head in Hin; [|assumption].
    subst c. contradiction. }
  assert (HB : NoDup (map (fun x : bytes * option V => c :: fst x) (trie_foreach ch)
                       ++ map fst (trie_foreach nx))).
  { apply NoDup_app_intro.
    - specialize (IHc Hch). revert IHc. generalize (trie_foreach ch).
      induction l as [|[k1 d1] l IHl]; intro H; [constructor|].
      simpl in *. inversion H; subst. constructor; [|auto].
      intro Hin. apply in_map_iff in Hin. destruct Hin as ([k2 d2] & Heq & Hin).
      simpl in Heq. inversion Heq; subst. apply H2. apply in_map_iff. exists (k1, d2). auto.
    - auto.
    - intros k Hin Hin2. apply in_map_iff in Hin. destruct Hin as ([k1 d1] & <- & Hin).
      apply (Hsub _ Hin2). reflexivity. }
  destruct (c == NUL) eqn:E; [|exact HB].
  simpl. destruct Hd as [_ ->]. simpl in *. constructor; [|exact HB].
  intro Hin. apply (Hsub _ Hin). simpl. apply eqb_true in E. congruence.
Qed.

Lemma size_foreach t : trie_size t = length (trie_foreach t).
Proof.
  induction t as [|c d ch IHc nx IHn]; [reflexivity|].
  rewrite foreach_node_eq. cbn [trie_size]. rewrite !app_length, map_length, IHc, IHn.
  destruct (c == NUL); cbn [length]; lia.
Qed.

Lemma last_value_in (h : list (bytes * V)) k :
  (exists v, last_value h k = Some v) <-> In k (map fst h).
Proof.
  induction h as [|[k0 v0] h IH]; simpl.
  - split; [intros [v H]; discriminate|tauto].
  - destruct (last_value h k) as [x|] eqn:E.
    + split; intros _; [right; apply IH; eauto|eauto].
    + destruct (beq_spec k0 k) as [->|Hne].
      * split; eauto.
      * split; [intros [v H]; discriminate|].
        intros [H|H]; [contradiction|]. apply IH in H. exact H.
Qed.

Lemma trie_foreach_spec (h : list (bytes * V)) :
  keys_ok h ->
  let calls := trie_foreach (trie_inserts h trie_new) in
  NoDup (map fst calls)
  /\ (forall k d, In (k, d) calls <-> exists v, d = Some v /\ last_value h k = Some v)
  /\ trie_size (trie_inserts h trie_new) = length (nodup bytes_dec (map fst h)).
Proof.
  intro Hh. cbv zeta.
  assert (Hwf : wf (trie_inserts h trie_new)) by (apply trie_inserts_wf; [assumption|exact I]).
  assert (Hnd := foreach_nodup Hwf).
  assert (Hin : forall k d, In (k, d) (trie_foreach (trie_inserts h trie_new)) <->
                            exists v, d = Some v /\ last_value h k = Some v).
  { intros k d. rewrite foreach_lookup by assumption. split.
    - intros (Hk & v & -> & Hl). exists v. rewrite trie_history in Hl by assumption. auto.
    - intros (v & -> & Hl).
      assert (Hk : no_nul k).
      { assert (Hi : In k (map fst h)) by (apply last_value_in; eauto).
        apply in_map_iff in Hi. destruct Hi as ([k1 v1] & <- & Hi).
        unfold keys_ok in Hh. rewrite Forall_forall in Hh. apply (Hh _ Hi). }
      split; [assumption|]. exists v. rewrite trie_history by assumption. auto. }
  split; [assumption|split;[assumption|]].
  rewrite size_foreach, <- (map_length fst).
  apply Permutation_length. apply NoDup_Permutation; [assumption|apply NoDup_nodup|].
  intro k. rewrite nodup_In, <- last_value_in, in_map_iff. split.
  - intros ([k1 d1] & <- & H). apply Hin in H. destruct H as (v & _ & H). eauto.
  - intros (v & H). exists (k, Some v). split; [reflexivity|]. apply Hin. eauto.
Qed.

(* ---- ownership of the values ---- *)
Lemma insert_free k v : no_nul k -> forall t,
  Permutation (snd (insert_go (k ++ [NUL]) v t) ++ trie_free (fst (insert_go (k ++ [NUL]) v t)))
              (v :: trie_free t).
Proof.
  induction k as [|c k IH]; intros Hk t.
  - change ([] ++ [NUL]) with [NUL]. induction t as [|c0 d ch _ nx IHn].
    + rewrite insert_nil, eqb_refl. simpl. reflexivity.
    + rewrite insert_node. destruct (c0 == NUL) eqn:E.
      * simpl fst; simpl snd. simpl trie_free. destruct d as [o|]; simpl.
        -- apply perm_swap.
        -- reflexivity.
      * destruct (insert_go [NUL] v nx) as [nx' fr]. simpl fst in *. simpl snd in *.
        simpl trie_free. rewrite !app_assoc.
        rewrite (Permutation_app_comm fr).
        rewrite <- (app_assoc (match d with Some w => [w] | None => [] end)), IHn.
        destruct d; simpl; [apply perm_swap|reflexivity].
  - apply no_nul_cons in Hk. destruct Hk as [Hc Hk].
    apply eqb_false in Hc. rewrite cons_app_nul.
    induction t as [|c0 d ch _ nx IHn].
    + rewrite insert_nil, Hc. specialize (IH Hk Nil).
      destruct (insert_go (k ++ [NUL]) v Nil) as [ch' fr]. simpl fst in *; simpl snd in *.
      simpl trie_free. exact IH.
    + rewrite insert_node. destruct (c0 == c) eqn:E.
      * rewrite Hc. specialize (IH Hk ch).
        destruct (insert_go (k ++ [NUL]) v ch) as [ch' fr]. simpl fst in *; simpl snd in *.
        simpl trie_free.
        transitivity (((match d with Some w => [w] | None => [] end) ++ trie_free nx) ++ (fr ++ trie_free ch')).
        -- rewrite !app_assoc. rewrite (Permutation_app_comm fr). rewrite <- !app_assoc.
           apply Permutation_app_head. rewrite !app_assoc. apply Permutation_app_tail.
           apply Permutation_app_comm.
        -- rewrite IH. rewrite app_assoc. symmetry. apply Permutation_middle.
      * destruct (insert_go (c :: k ++ [NUL]) v nx) as [nx' fr]. simpl fst in *; simpl snd in *.
        simpl trie_free. rewrite !app_assoc.
        rewrite (Permutation_app_comm fr).
        rewrite <- (app_assoc (match d with Some w => [w] | None => [] end)), IHn.
        destruct d; simpl; [apply perm_swap|reflexivity].
Qed.

Lemma trie_ownership (h : list (bytes * V)) : forall t, keys_ok h ->
  Permutation (snd (trie_inserts_f h t) ++ trie_free (fst (trie_inserts_f h t)))
              (map snd h ++ trie_free t).
Proof.
  induction h as [|[k v] h IH]; intros t Hh; [reflexivity|].
  inversion Hh; subst. simpl trie_inserts_f.
  pose proof (@insert_free k v H1 t) as Hi.
  unfold trie_insert_f in *. destruct (insert_go (k ++ [NUL]) v t) as [t1 f1].
  specialize (IH t1 H2). destruct (trie_inserts_f h t1) as [t2 f2].
  simpl in *. rewrite <- app_assoc, IH.
  rewrite app_assoc, (Permutation_app_comm f1), <- app_assoc, Hi.
  symmetry. apply Permutation_middle.
Qed.

Lemma trie_inserts_f_fst (h : list (bytes * V)) : forall t,
  fst (trie_inserts_f h t) = trie_inserts h t.
Proof.
  induction h as [|[k v] h IH]; intro t; [reflexivity|].
  simpl trie_inserts_f. change (trie_inserts ((k, v) :: h) t) with (trie_inserts h (trie_insert t k v)).
  unfold trie_insert. destruct (trie_insert_f t k v) as [t1 f1].
  specialize (IH t1). destruct (trie_inserts_f h t1). exact IH.
Qed.
End Proofs.
