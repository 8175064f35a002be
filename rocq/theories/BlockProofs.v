(* Termination, safety and output of the block parser. *)
From Verif Require Import Base Utils UtilsProofs Toctree Content InlineSpec InlineProofs BlockSpec.
#[local] Arguments B : simpl never.

Lemma is_nl_iff c : is_nl c = true <-> newline_byte c.
Proof. unfold is_nl, newline_byte. rewrite orb_true_iff, !eqb_true. tauto. Qed.

(* one iteration *)
Definition iter (rec : bytes -> bytes -> res bytes) (o : bopts) (s : bytes) (len cur : nat) (b : bvars)
  : res (nat * bvars) :=
  do c <- crd s cur ; do (cur', c', b') <- newline s len cur c b ; bstep rec o s len cur' c' b'.

Lemma bloop_S f rec o s len cur b : cur < len ->
  bloop (S f) rec o s len cur b = do x <- iter rec o s len cur b ; bloop f rec o s len (fst x) (snd x).
Proof.
  intro H. cbn [bloop]. apply Nat.leb_gt in H. rewrite H. unfold iter.
  destruct (crd s cur); cbn [rbind]; auto.
  destruct (newline s len cur a b) as [((cur' & c') & b')| |]; reflexivity.
Qed.
Lemma bloop_end f rec o s len cur b : len <= cur -> bloop f rec o s len cur b = Ok b.
Proof. intro H. apply Nat.leb_le in H. destruct f; cbn [bloop]; rewrite H; reflexivity. Qed.

(* the states that never keep their position at the last byte *)
Definition final (st : bstate) : bool :=
  match st with BPara | BParaEnd | BRule => true | _ => false end.
Definition need (len cur : nat) (b : bvars) : nat :=
  2 * (len - cur) - (if Nat.eqb cur (len - 1) && final (b_state b) then 1 else 0).

Ltac bcbn := cbn [b_state b_start b_start2 b_end b_eend b_real b_level b_prefix b_plen b_d b_lines b_lines2 b_rv
  b_le b_lef b_exc b_fh b_desc b_hdrs
  set_state set_start set_start2 set_end set_eend set_real set_level set_prefix set_plen set_d set_lines
  set_lines2 set_rv set_le set_lef set_exc set_fh set_desc set_hdrs addrv fst snd rbind] in *.

Definition newline_spec (s : bytes) (len cur : nat) (c : ascii) (b : bvars) (r : res (nat * ascii * bvars)) : Prop :=
  exists cur' c' b', r = Ok (cur', c', b') /\ nth_error s cur' = Some c' /\ cur <= cur' < len /\
  ((cur' = cur /\ c' = c /\ ((is_nl c = false /\ b' = b) \/ (is_nl c = true /\ b' = note_le [c] b))) \/
   (cur' = cur + 1 /\ is_nl c = true /\ is_nl c' = true /\ c' <> c /\ b' = set_real cur (note_le [c; c'] b))).

Lemma newline_ok s len cur c b : len = length s -> nth_error s cur = Some c ->
  newline_spec s len cur c b (newline s len cur c b).
Proof.
  intros -> Hc. assert (L : cur < length s) by (apply nth_error_Some; congruence).
  unfold newline_spec, newline. destruct (is_nl c) eqn:En.
  - destruct (Nat.ltb (cur + 1) (length s)) eqn:Lt; cbn [rbind].
    + apply Nat.ltb_lt in Lt. destruct (nth_error s (cur + 1)) as [c2|] eqn:E2.
      2:{ apply nth_error_None in E2. lia. }
      rewrite (crd_at E2). cbn [rbind].
      destruct (((c == LF) && (c2 == CR)) || ((c == CR) && (c2 == LF))) eqn:Ep.
      * exists (cur + 1), c2, (set_real cur (note_le [c; c2] b)). split; [reflexivity|].
        split; [exact E2|]. split; [lia|]. right. split; [reflexivity|]. split; [reflexivity|].
        apply orb_true_iff in Ep. rewrite !andb_true_iff, !eqb_true in Ep.
        destruct Ep as [(-> & ->)|(-> & ->)]; (split; [reflexivity|split; [discriminate|reflexivity]]).
      * exists cur, c, (note_le [c] b). repeat split; auto. left. auto.
    + exists cur, c, (note_le [c] b). repeat split; auto. left. auto.
  - exists cur, c, b. repeat split; auto. left. auto.
Qed.

Lemma note_le_state e b : b_state (note_le e b) = b_state b.
Proof. unfold note_le. destruct (b_lef b); reflexivity. Qed.

Ltac brk := repeat (bcbn; match goal with
  | H : UB = Ok _ |- _ => discriminate H
  | H : OutOfFuel = Ok _ |- _ => discriminate H
  | H : rbind ?e _ = Ok _ |- _ => let E := fresh "E" in destruct e eqn:E
  | H : (if ?e then _ else _) = Ok _ |- _ => let E := fresh "E" in destruct e eqn:E
  | H : Ok (if ?e then _ else _, _) = Ok _ |- _ => let E := fresh "E" in destruct e eqn:E
  | H : Ok (_, if ?e then _ else _) = Ok _ |- _ => let E := fresh "E" in destruct e eqn:E
  | H : match b_prefix ?b with _ => _ end = Ok _ |- _ => let E := fresh "E" in destruct (b_prefix b) eqn:E
  | H : Ok _ = Ok _ |- _ => injection H as <- <-
  end).

Ltac splits := repeat match goal with
  | |- context [if ?e then _ else _] => destruct e
  | |- context [match b_prefix ?b with _ => _ end] => destruct (b_prefix b)
  end.

(* each iteration moves on, or stays at the last byte once *)
Definition moves (len cur : nat) (b : bvars) (cur' : nat) (b' : bvars) : Prop :=
  cur' = cur + 1 \/ (cur' = cur /\ cur = len - 1 /\ final (b_state b) = false /\ final (b_state b') = true).

Lemma flush_item_state b b' : flush_item b = Ok b' -> b_state b' = b_state b.
Proof.
  unfold flush_item. destruct (b_lines2 b) as [[|x l]|]; try discriminate; intro H.
  - congruence.
  - destruct (inline _); cbn [rbind] in H; inv H. reflexivity.
Qed.
Lemma list_end_moves tag again cur c last b cur' b' :
  list_end tag again cur c last b = Ok (cur', b') -> cur' = cur + 1.
Proof. unfold list_end. intro H. brk; reflexivity. Qed.
Lemma list_start_moves item plen tag again endst s len cur c b cur' b' :
  final (b_state b) = false ->
  list_start item plen tag again endst s len cur c (Nat.eqb cur (len - 1)) b = Ok (cur', b') ->
  moves len cur b cur' b'.
Proof.
  intros F H. unfold list_start in H. unfold moves.
  destruct (is_nl c || Nat.eqb cur (len - 1)) eqn:E0; [|injection H as <- <-; auto].
  destruct (item _).
  - destruct (flush_item _); cbn [rbind] in H; try discriminate.
    destruct (push2 _ _); cbn [rbind] in H; try discriminate.
    destruct (Nat.eqb cur (len - 1)); [left; exact (list_end_moves H)|injection H as <- <-; auto].
  - destruct (starts_with _ _).
    + destruct (push2 _ _); cbn [rbind] in H; try discriminate.
      destruct (Nat.eqb cur (len - 1)); [left; exact (list_end_moves H)|injection H as <- <-; auto].
    + destruct (drop_items _); cbn [rbind] in H; try discriminate.
      destruct (Nat.eqb cur (len - 1)) eqn:El; injection H as <- <-; [|auto].
      right. apply Nat.eqb_eq in El. bcbn. auto.
Qed.

Lemma bstep_moves rec o s len cur c b cur' b' :
  bstep rec o s len cur c b = Ok (cur', b') -> moves len cur b cur' b'.
Proof.
  intro H. unfold bstep in H. set (last := Nat.eqb cur (len - 1)) in *.
  unfold moves. destruct (b_state b) eqn:St;
  try (unfold header_title, html_end, quote_end, code_end, para_end in H; brk; auto; fail);
  try (left; exact (list_end_moves H)).
  - unfold quote_end in H; brk; auto; right; repeat split; apply Nat.eqb_eq; assumption.
  - unfold code_end in H; brk; auto; right; repeat split; apply Nat.eqb_eq; assumption.
  - brk; auto; right; repeat split; apply Nat.eqb_eq; assumption.
  - destruct (b_prefix b) as [pre|]; [|brk; auto].
    apply list_start_moves in H; [unfold moves in H; rewrite St in H; exact H|rewrite St; reflexivity].
  - brk; auto; right; repeat split; apply Nat.eqb_eq; assumption.
  - destruct (is_sp c); [brk; auto|].
    destruct (negb (is_nl c || last)); [brk; auto|].
    apply list_start_moves in H; [exact H|reflexivity].
  - apply list_start_moves in H; [unfold moves in H; rewrite St in H; exact H|rewrite St; reflexivity].
Qed.

Lemma iter_need rec o s len cur b cur' b' : len = length s -> cur < len ->
  iter rec o s len cur b = Ok (cur', b') -> need len cur' b' < need len cur b /\ cur' <= len.
Proof.
  intros El L H. unfold iter in H.
  destruct (nth_error s cur) as [c|] eqn:Ec; [|apply nth_error_None in Ec; lia].
  rewrite (crd_at Ec) in H. cbn [rbind] in H.
  destruct (newline_ok b El Ec) as (cu & c1 & b1 & E & _ & Hcu & Hc). rewrite E in H. cbn [rbind] in H.
  assert (Fs : b_state b1 = b_state b).
  { destruct Hc as [(_ & _ & [(_ & ->)|(_ & ->)])|(_ & _ & _ & _ & ->)]; bcbn; rewrite ?note_le_state; reflexivity. }
  apply bstep_moves in H. unfold moves in H. unfold need. rewrite Fs in H.
  destruct H as [->|(-> & Hl & F1 & F2)].
  - split; [|lia]. destruct (Nat.eqb cur (len - 1)) eqn:E1; cbn [andb].
    + apply Nat.eqb_eq in E1. assert (cu = cur) by lia. subst cu.
      destruct (final (b_state b)), (Nat.eqb (cur + 1) (len - 1) && final (b_state b')); lia.
    + apply Nat.eqb_neq in E1. destruct (Nat.eqb (cu + 1) (len - 1) && final (b_state b')); lia.
  - split; [|lia]. rewrite F1, F2, andb_true_r, andb_false_r.
    assert (E1 : Nat.eqb cu (len - 1) = true) by (apply Nat.eqb_eq; lia). rewrite E1. lia.
Qed.

(* invariants of the loop *)
Lemma bloop_inv rec o s len (I : nat -> bvars -> Prop) (U F : Prop) : len = length s ->
  (forall cur b, I cur b -> cur < len ->
     match iter rec o s len cur b with Ok (cur', b') => I cur' b' | UB => U | OutOfFuel => F end) ->
  forall fuel cur b, I cur b -> cur <= len -> need len cur b <= fuel ->
  match bloop fuel rec o s len cur b with Ok b' => I len b' | UB => U | OutOfFuel => F end.
Proof.
  intros El St. induction fuel as [|f IH]; intros cur b HI Hc Hf.
  - assert (cur = len).
    { unfold need in Hf. destruct (Nat.eqb cur (len - 1) && final (b_state b)); lia. }
    subst cur. rewrite bloop_end by lia. exact HI.
  - destruct (Nat.eq_dec cur len) as [->|Hn].
    + rewrite bloop_end by lia. exact HI.
    + assert (L : cur < len) by lia. rewrite bloop_S by lia. specialize (St cur b HI L).
      destruct (iter rec o s len cur b) as [(cur', b')| |] eqn:E; cbn [rbind fst snd]; auto.
      destruct (iter_need El L E). apply IH; auto. lia.
Qed.

Lemma need_le len cur b : need len cur b <= 2 * (len - cur).
Proof. unfold need. destruct (Nat.eqb cur (len - 1) && final (b_state b)); lia. Qed.
