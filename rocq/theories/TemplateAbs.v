(* The template parser without indices: the same automaton, remembering the
   bytes read instead of offsets into the source, and the proof that the model
   of the C code follows it step by step. *)
From Verif Require Import Base Utils Template.

Record acore : Type := Core
  { k_ifs : nat; k_bifs : nat; k_else : bool; k_fe : bool; k_bfe : bool;
    k_ast : list tnode; k_lstrip : bool; k_bt : option bytes; k_block : bool }.

Inductive phase : Type :=
| PText (t : bytes)
| POpen (t : bytes)
| PClean
| PStart
| PKw (w : bytes)
| PBBStart
| PBB (w : bytes)
| PIfStart (ty : ntype)
| PIfVar (ty : ntype) (v : bytes)
| POpStart (v : bytes)
| POp (v o : bytes)
| POperandStart (v o : bytes)
| PStr (v o q : bytes)
| PVarOp (v o q : bytes)
| PForStart
| PForVar (v : bytes)
| PEndClean (ty : ntype) (d0 : option bytes) (o : bytes) (d1 : option bytes)
| PEnd (ty : ntype) (d0 : option bytes) (o : bytes) (d1 : option bytes)
| PVarStart
| PVar (v : bytes)
| PVarEnd (v : bytes)
| PClose (ty : ntype) (d0 : option bytes) (o : bytes) (d1 : option bytes).

Definition ares : Type := ((acore * phase) + tmsg)%type.
Definition ago (k : acore) (p : phase) : ares := inl (k, p).

Definition k_push (k : acore) (n : tnode) (ls : bool) : acore :=
  Core (k_ifs k) (k_bifs k) (k_else k) (k_fe k) (k_bfe k) (k_ast k ++ [n]) ls (k_bt k) (k_block k).
Definition k_text (k : acore) (t : bytes) : acore :=
  k_push k (Node TContent ONone (Some (if k_lstrip k then lstrip (cstr t) else cstr t)) None) false.
Definition k_set_ast (k : acore) (l : list tnode) : acore :=
  Core (k_ifs k) (k_bifs k) (k_else k) (k_fe k) (k_bfe k) l (k_lstrip k) (k_bt k) (k_block k).
Definition k_set_ifs (k : acore) (n : nat) (e : bool) : acore :=
  Core n (k_bifs k) e (k_fe k) (k_bfe k) (k_ast k) (k_lstrip k) (k_bt k) (k_block k).
Definition k_enter (k : acore) : acore :=
  Core (k_ifs k) (k_ifs k) (k_else k) (k_fe k) (k_fe k) (k_ast k) (k_lstrip k) (k_bt k) (k_block k).
Definition k_set_fe (k : acore) (b : bool) : acore :=
  Core (k_ifs k) (k_bifs k) (k_else k) b (k_bfe k) (k_ast k) (k_lstrip k) (k_bt k) (k_block k).
Definition k_set_block (k : acore) (b : bool) : acore :=
  Core (k_ifs k) (k_bifs k) (k_else k) (k_fe k) (k_bfe k) (k_ast k) (k_lstrip k) (k_bt k) b.
Definition k_set_lstrip (k : acore) (b : bool) : acore :=
  Core (k_ifs k) (k_bifs k) (k_else k) (k_fe k) (k_bfe k) (k_ast k) b (k_bt k) (k_block k).
Definition k_set_bt (k : acore) (b : option bytes) : acore :=
  Core (k_ifs k) (k_bifs k) (k_else k) (k_fe k) (k_bfe k) (k_ast k) (k_lstrip k) b (k_block k).

Definition a_open_if (k : acore) : bool :=
  (k_block k && Nat.ltb (k_bifs k) (k_ifs k)) || (negb (k_block k) && Nat.ltb 0 (k_ifs k)).

Definition a_block_start (k : acore) (c : ascii) : ares :=
  if isspace c then ago k PStart
  else if is_lower c then ago k (PKw [c])
  else if c == "-"%char then inr MDupCleanBefore
  else inr MStmtLower.

Definition a_block_end (k : acore) ty d0 o d1 (c : ascii) : ares :=
  if c == "%"%char then ago k (PClose ty d0 o d1)
  else if c == "-"%char then inr MDupCleanAfter
  else inr MEndPct.

(* the statement keyword [w] was followed by a blank *)
Definition a_keyword (k : acore) (w : bytes) : ares :=
  if beq w (B "block") then
    if negb (k_block k) then ago (k_enter k) PBBStart else inr MNested
  else if beq w (B "endblock") then
    if k_block k then
      if negb (Nat.eqb (k_ifs k) (k_bifs k)) then inr (MIfsInBlock (k_ifs k - k_bifs k) (k_bt k))
      else if negb (k_bfe k) && k_fe k then inr (MForeachInBlock (k_bt k))
      else ago (k_set_block k false) (PEndClean TEndblock None [] None)
    else inr MEndblock
  else if beq w (B "ifdef") then ago (k_set_ifs k (k_ifs k + 1) false) (PIfStart TIfdef)
  else if beq w (B "ifndef") then ago (k_set_ifs k (k_ifs k + 1) false) (PIfStart TIfndef)
  else if beq w (B "if") then ago (k_set_ifs k (k_ifs k + 1) false) (PIfStart TIf)
  else if beq w (B "else") then
    if a_open_if k then
      if negb (k_else k) then ago (k_set_ifs k (k_ifs k) true) (PEndClean TElse None [] None)
      else inr MTwoElse
    else inr MElse
  else if beq w (B "endif") then
    if a_open_if k then ago (k_set_ifs k (k_ifs k - 1) false) (PEndClean TEndif None [] None)
    else inr MEndif
  else if beq w (B "foreach") then
    if negb (k_fe k) then ago (k_set_fe k true) PForStart else inr MForNested
  else if beq w (B "endforeach") then
    if (k_block k && negb (k_bfe k) && k_fe k) || (negb (k_block k) && k_fe k)
    then ago (k_set_fe k false) (PEndClean TEndforeach None [] None)
    else inr MEndforeach
  else inr MStmtType.

Definition block_name (w : bytes) : bool :=
  beq w (B "entry") || beq w (B "listing") || beq w (B "listing_once")
  || beq w (B "listing_empty") || beq w (B "listing_entry").

Definition a_close (k : acore) ty (d0 : option bytes) (o : bytes) (d1 : option bytes) : ares :=
  let fin op :=
    let d0 := option_map cstr d0 in
    let n := Node ty op d0 (option_map cstr d1) in
    let k1 := match ty with TBlock => k_set_bt k d0 | _ => k end in
    ago (k_push k1 n (k_lstrip k)) (PText []) in
  match o with
  | [] => fin ONone
  | _ => match op_of o with None => inr MOperator | Some op => fin op end
  end.

Definition a_step (k : acore) (p : phase) (c : ascii) (is_last : bool) : ares :=
  match p with
  | PText t =>
      let k1 := if is_last then k_text k (t ++ [c]) else k in
      if c == "{"%char then ago k1 (POpen t) else ago k1 (PText (t ++ [c]))
  | POpen t =>
      if (c == "%"%char) || (c == "{"%char) then
        ago (match t with [] => k | _ => k_text k t end)
            (if c == "%"%char then PClean else PVarStart)
      else ago k (PText (t ++ "{"%char :: [c]))
  | PClean =>
      if c == "-"%char then ago (k_set_ast k (rstrip_last (k_ast k))) PStart else a_block_start k c
  | PStart => a_block_start k c
  | PKw w =>
      if is_lower c then ago k (PKw (w ++ [c]))
      else if isspace c then a_keyword k w
      else inr MStmtType
  | PBBStart =>
      if isspace c then ago k PBBStart else if is_lower c then ago k (PBB [c]) else inr MBlockLower
  | PBB w =>
      if is_lower c || (c == "_"%char) then ago k (PBB (w ++ [c]))
      else if isspace c then
        if block_name w then ago (k_set_block k true) (PEndClean TBlock (Some w) [] None)
        else inr MBlockType
      else inr MBlockType
  | PIfStart ty =>
      if isspace c then ago k (PIfStart ty) else if is_upper c then ago k (PIfVar ty [c]) else inr MVarUpper
  | PIfVar ty v =>
      if var_char c then ago k (PIfVar ty (v ++ [c]))
      else if isspace c then
        ago k (match ty with TIf => POpStart v | _ => PEndClean ty (Some v) [] None end)
      else inr MVarChar
  | POpStart v => if isspace c then ago k (POpStart v) else ago k (POp v [c])
  | POp v o => if negb (isspace c) then ago k (POp v (o ++ [c])) else ago k (POperandStart v o)
  | POperandStart v o =>
      if isspace c then ago k (POperandStart v o)
      else if is_upper c then ago k (PVarOp v o [c])
      else if c == DQ then ago k (PStr v o [c])
      else inr MOperand
  | PStr v o q =>
      if negb (c == DQ) then ago k (PStr v o (q ++ [c]))
      else if last q NUL == BSL then ago k (PStr v o (q ++ [c]))
      else ago k (PEndClean TIf (Some v) o (Some (q ++ [c])))
  | PVarOp v o q =>
      if var_char c then ago k (PVarOp v o (q ++ [c]))
      else ago k (PEndClean TIf (Some v) o (Some q))
  | PForStart =>
      if isspace c then ago k PForStart else if is_upper c then ago k (PForVar [c]) else inr MForUpper
  | PForVar v =>
      if var_char c then ago k (PForVar (v ++ [c]))
      else if isspace c then ago k (PEndClean TForeach (Some v) [] None)
      else inr MForChar
  | PEndClean ty d0 o d1 =>
      if isspace c then ago k (PEndClean ty d0 o d1)
      else if c == "-"%char then ago (k_set_lstrip k true) (PEnd ty d0 o d1)
      else a_block_end k ty d0 o d1 c
  | PEnd ty d0 o d1 => a_block_end k ty d0 o d1 c
  | PVarStart =>
      if isspace c then ago k PVarStart else if is_upper c then ago k (PVar [c]) else inr MVarUpper
  | PVar v =>
      if var_char c then ago k (PVar (v ++ [c]))
      else if isspace c then ago k (PVarEnd v)
      else if c == "}"%char then ago k (PClose TVariable (Some v) [] None)
      else inr MVarChar
  | PVarEnd v =>
      if isspace c then ago k (PVarEnd v)
      else if c == "}"%char then ago k (PClose TVariable (Some v) [] None)
      else inr MEndVar
  | PClose ty d0 o d1 => if c == "}"%char then a_close k ty d0 o d1 else inr MEndBrace
  end.

Definition a_finish (k : acore) (p : phase) : list tnode + tmsg :=
  match p with
  | PStr _ _ _ => inr MString
  | _ =>
      if negb (Nat.eqb (k_ifs k) 0) then inr (MIfs (k_ifs k))
      else if k_block k then inr MBlockOpen
      else if k_fe k then inr MForeachOpen
      else inl (k_ast k)
  end.

Definition nilb (l : bytes) : bool := match l with [] => true | _ => false end.

(* runs until the end of the bytes: final configuration or error *)
Fixpoint a_run (k : acore) (p : phase) (q : bytes) : ares :=
  match q with
  | [] => inl (k, p)
  | c :: q' => match a_step k p c (nilb q') with
               | inl (k', p') => a_run k' p' q'
               | inr m => inr m
               end
  end.

Definition k_init : acore := Core 0 0 false false false [] false None false.

Definition a_parse (src : bytes) : list tnode + tmsg :=
  match a_run k_init (PText []) src with
  | inl (k, p) => a_finish k p
  | inr m => inr m
  end.

(* ------- the C model follows the automaton ------- *)

Definition cut (src : bytes) (lo hi : nat) (t : bytes) : Prop :=
  lo <= hi /\ hi <= length src /\ sub src lo hi = t.

Definition core_of (s : tst) : acore :=
  Core (t_ifs s) (t_block_ifs s) (t_else s) (t_foreach s) (t_block_foreach s) (t_ast s)
       (t_lstrip s) (t_block_type s) (t_block s).

Definition op_idle (s : tst) : Prop := t_op_start s = 0 /\ t_op_end s = 0.
Definition two_idle (s : tst) : Prop := t_start2 s = 0 /\ t_end2 s = 0.

Definition is_if (ty : ntype) : bool :=
  match ty with TIf | TIfdef | TIfndef => true | _ => false end.

Definition d0_ok src s (d0 : option bytes) : Prop :=
  match d0 with
  | None => t_end s <= t_start s
  | Some v => v <> [] /\ cut src (t_start s) (t_end s) v
  end.
Definition op_ok src s (o : bytes) : Prop :=
  match o with [] => op_idle s | _ => cut src (t_op_start s) (t_op_end s) o end.
Definition d1_ok src s (d1 : option bytes) : Prop :=
  match d1 with
  | None => two_idle s
  | Some q => q <> [] /\ cut src (t_start2 s) (t_end2 s) q
  end.

Definition rep_phase (src : bytes) (cur : nat) (s : tst) (p : phase) : Prop :=
  match p with
  | PText t => t_state s = SStart /\ t_type s = TContent /\ cut src (t_start s) cur t /\ op_idle s /\ two_idle s
  | POpen t => t_state s = SOpen /\ t_type s = TContent /\ cut src (t_start s) (t_end s) t /\
               cut src (t_start s) cur (t ++ ["{"%char]) /\ op_idle s /\ two_idle s
  | PClean => t_state s = SBlockStartClean /\ t_end s < cur /\ op_idle s /\ two_idle s
  | PStart => t_state s = SBlockStart /\ t_end s < cur /\ op_idle s /\ two_idle s
  | PKw w => t_state s = SBlockType /\ cut src (t_start s) cur w /\ t_end s <= t_start s /\ op_idle s /\ two_idle s
  | PBBStart => t_state s = SBBTypeStart /\ t_type s = TBlock /\ op_idle s /\ two_idle s
  | PBB w => t_state s = SBBType /\ t_type s = TBlock /\ w <> [] /\ cut src (t_start s) cur w /\ op_idle s /\ two_idle s
  | PIfStart ty => t_state s = SIfStart /\ t_type s = ty /\ op_idle s /\ two_idle s
  | PIfVar ty v => t_state s = SIfVar /\ t_type s = ty /\ v <> [] /\ cut src (t_start s) cur v /\ op_idle s /\ two_idle s
  | POpStart v => t_state s = SIfOpStart /\ t_type s = TIf /\ d0_ok src s (Some v) /\ op_idle s /\ two_idle s
  | POp v o => t_state s = SIfOp /\ t_type s = TIf /\ d0_ok src s (Some v) /\ o <> [] /\
               cut src (t_op_start s) cur o /\ two_idle s
  | POperandStart v o => t_state s = SIfOperandStart /\ t_type s = TIf /\ d0_ok src s (Some v) /\
               op_ok src s o /\ two_idle s
  | PStr v o q => t_state s = SIfString /\ t_type s = TIf /\ d0_ok src s (Some v) /\
               op_ok src s o /\ q <> [] /\ cut src (t_start2 s) cur q
  | PVarOp v o q => t_state s = SIfVarOperand /\ t_type s = TIf /\ d0_ok src s (Some v) /\
               op_ok src s o /\ q <> [] /\ cut src (t_start2 s) cur q
  | PForStart => t_state s = SForStart /\ t_type s = TForeach /\ op_idle s /\ two_idle s
  | PForVar v => t_state s = SForVar /\ t_type s = TForeach /\ v <> [] /\ cut src (t_start s) cur v /\ op_idle s /\ two_idle s
  | PEndClean ty d0 o d1 => t_state s = SEndClean /\ t_type s = ty /\ d0_ok src s d0 /\ op_ok src s o /\ d1_ok src s d1
  | PEnd ty d0 o d1 => t_state s = SEnd /\ t_type s = ty /\ d0_ok src s d0 /\ op_ok src s o /\ d1_ok src s d1
  | PVarStart => t_state s = SVarStart /\ op_idle s /\ two_idle s
  | PVar v => t_state s = SVar /\ t_type s = TVariable /\ v <> [] /\ cut src (t_start s) cur v /\ op_idle s /\ two_idle s
  | PVarEnd v => t_state s = SVarEnd /\ t_type s = TVariable /\ d0_ok src s (Some v) /\ op_idle s /\ two_idle s
  | PClose ty d0 o d1 => t_state s = SClose /\ t_type s = ty /\ d0_ok src s d0 /\ op_ok src s o /\ d1_ok src s d1
  end.

Definition rep (src : bytes) (cur : nat) (s : tst) (k : acore) (p : phase) : Prop :=
  core_of s = k /\ rep_phase src cur s p.

Lemma cut_snoc src lo cur t c :
  cut src lo cur t -> nth_error src cur = Some c -> cut src lo (cur + 1) (t ++ [c]).
Proof.
  intros (H1 & H2 & H3) H. assert (cur < length src) by (apply nth_error_Some; congruence).
  split; [lia|]. split; [lia|]. unfold sub in *. subst t.
  destruct (nth_error_split src cur H) as (l1 & l2 & E & L). subst src cur.
  rewrite skipn_app. replace (lo - length l1) with 0 by lia. cbn [skipn].
  rewrite !firstn_app, !skipn_length.
  replace (length l1 - lo - (length l1 - lo)) with 0 by lia.
  replace (length l1 + 1 - lo - (length l1 - lo)) with 1 by lia. cbn [firstn]. rewrite app_nil_r.
  rewrite !firstn_all2; [reflexivity| |]; rewrite skipn_length; lia.
Qed.

Lemma cut_one src cur c : nth_error src cur = Some c -> cut src cur (cur + 1) [c].
Proof.
  intro H. apply (@cut_snoc src cur cur []); [|assumption].
  assert (cur < length src) by (apply nth_error_Some; congruence).
  split; [lia|]. split; [lia|]. unfold sub. rewrite Nat.sub_diag. reflexivity.
Qed.

Lemma cut_length src lo hi t : cut src lo hi t -> length t = hi - lo.
Proof. intros (H1 & H2 & H3). subst t. apply sub_length; lia. Qed.

Lemma cut_nil src lo : lo <= length src -> cut src lo lo [].
Proof. intro. split; [lia|]. split; [lia|]. unfold sub. rewrite Nat.sub_diag. reflexivity. Qed.

Lemma cut_lt src lo hi t : cut src lo hi t -> t <> [] -> lo < hi.
Proof. intros H Hn. apply cut_length in H as L. destruct H. destruct t; [congruence|]. simpl in L. lia. Qed.

Lemma cut_dup src lo hi t : cut src lo hi t -> t_dup src lo hi = Ok (cstr t).
Proof.
  intros (H1 & H2 & H3). unfold t_dup. subst t.
  assert (E1 : (lo <=? hi) = true) by (apply Nat.leb_le; lia).
  assert (E2 : (hi <=? length src) = true) by (apply Nat.leb_le; lia).
  rewrite E1, E2. reflexivity.
Qed.

Lemma cut_word src lo hi t w : cut src lo hi t -> word_is src lo hi w = beq t w.
Proof.
  intro H. pose proof (cut_length H) as L. destruct H as (H1 & H2 & H3). unfold word_is.
  destruct (beq_spec t w) as [E|E].
  - subst w. rewrite <- L, Nat.eqb_refl. simpl.
    replace (lo + length t) with hi by lia. rewrite H3. apply beq_refl.
  - destruct (Nat.eqb_spec (hi - lo) (length w)) as [E2|E2]; [|reflexivity]. simpl.
    replace (lo + length w) with hi by lia. rewrite H3. apply beq_neq, E.
Qed.

Lemma cut_last src lo hi t : cut src lo hi t -> t <> [] ->
  (match hi with 0 => UB | S i => rd src i end) = Ok (last t NUL).
Proof.
  intros H Hn. pose proof (cut_lt H Hn) as Hlt. destruct hi as [|i]; [lia|].
  destruct H as (H1 & H2 & H3).
  destruct (nth_error src i) as [c|] eqn:E; [|apply nth_error_None in E; lia].
  assert (Hc : cut src lo i (sub src lo i)) by (split; [lia|]; split; [lia|reflexivity]).
  pose proof (cut_snoc Hc E) as (_ & _ & H4). replace (i + 1) with (S i) in H4 by lia.
  unfold rd. rewrite E. rewrite <- H3, H4. rewrite last_last. reflexivity.
Qed.

Lemma nat_ltb_true a b : a < b -> Nat.ltb a b = true. Proof. apply Nat.ltb_lt. Qed.
Lemma nat_ltb_false a b : b <= a -> Nat.ltb a b = false. Proof. apply Nat.ltb_ge. Qed.

Definition sim (src : bytes) (cur : nat) (r : res (tst + terror)) (a : ares) : Prop :=
  match a with
  | inl (k, p) => exists s', r = Ok (inl s') /\ rep src (cur + 1) s' k p
  | inr m => exists at_, r = Ok (inr (TErr m at_)) /\
                         (match at_ with Some i => i < length src | None => True end)
  end.

Ltac sim_go := eexists; split; [reflexivity|]; split; [reflexivity|]; cbn; try tauto.
Ltac sim_fail := eexists; split; [reflexivity|]; cbn; first [exact I|assumption|lia].

Lemma sim_block_start src cur s k c : cur < length src -> nth_error src cur = Some c ->
  rep src cur s k PStart -> sim src cur (step_block_start s cur c) (a_block_start k c).
Proof.
  intros Hc Hn (Hk & Hs & He & Ho & H2). subst k. unfold step_block_start, a_block_start.
  destruct (isspace c); [sim_go; split; [exact Hs|]; split; [lia|]; tauto|].
  destruct (is_lower c).
  - sim_go. split; [reflexivity|]. split; [apply cut_one, Hn|]. split; [lia|]. tauto.
  - destruct (c == "-"%char); sim_fail.
Qed.

Lemma sim_block_end src cur s k ty d0 o d1 c : cur < length src ->
  rep src cur s k (PEnd ty d0 o d1) ->
  sim src cur (step_block_end s cur c) (a_block_end k ty d0 o d1 c).
Proof.
  intros Hc (Hk & Hs & Ht & H0 & Ho & H1). subst k. unfold step_block_end, a_block_end.
  destruct (c == "%"%char); [sim_go; destruct o; tauto|].
  destruct (c == "-"%char); sim_fail.
Qed.

Lemma sim_keyword src cur s k w c : cur < length src -> is_lower c = false ->
  rep src cur s k (PKw w) ->
  sim src cur (step_block_type s src cur c) (if isspace c then a_keyword k w else inr MStmtType).
Proof.
  intros Hc Hl (Hk & Hs & Hcut & He & Ho & H2). unfold step_block_type. rewrite Hl.
  rewrite !(cut_word _ Hcut). subst k.
  destruct (isspace c); [|sim_fail]. unfold a_keyword, a_open_if, open_if. cbn [k_block k_ifs k_bifs k_else k_fe k_bfe k_bt core_of].
  assert (E2 : forall n, d0_ok src n None <-> t_end n <= t_start n) by reflexivity.
  repeat match goal with |- sim _ _ (if ?b then _ else _) _ => destruct b end;
    first [sim_fail | sim_go].
Qed.

Lemma sim_close src cur s k ty d0 o d1 : cur < length src ->
  rep src cur s k (PClose ty d0 o d1) ->
  sim src cur (step_close s src cur) (a_close k ty d0 o d1).
Proof.
  intros Hc (Hk & Hs & Ht & H0 & Ho & H1).
  unfold step_close.
  assert (Hfin : forall op s', op_idle s' -> core_of s' = k -> t_type s' = ty ->
            d0_ok src s' d0 -> d1_ok src s' d1 ->
            sim src cur (close_node src cur op s')
              (ago (k_push (match ty with TBlock => k_set_bt k (option_map cstr d0) | _ => k end)
                 (Node ty op (option_map cstr d0) (option_map cstr d1)) (k_lstrip k)) (PText []))).
  { clear s Hk Hs Ht H0 Ho H1. intros op s Ho Hk Ht H0 H1. unfold close_node.
    assert (E0 : (if Nat.ltb (t_start s) (t_end s)
              then do t <- t_dup src (t_start s) (t_end s) ; Ok (Some t) else Ok None) = Ok (option_map cstr d0)).
    { destruct d0 as [v|]; simpl in H0 |- *.
      - destruct H0 as [Hv Hcut]. rewrite (nat_ltb_true (cut_lt Hcut Hv)), (cut_dup Hcut). reflexivity.
      - rewrite nat_ltb_false by lia. reflexivity. }
    assert (E1 : (if Nat.ltb (t_start2 s) (t_end2 s)
              then do t <- t_dup src (t_start2 s) (t_end2 s) ; Ok (Some t, (0, 0))
              else Ok (None, (t_start2 s, t_end2 s))) = Ok (option_map cstr d1, (0, 0))).
    { destruct d1 as [v|]; simpl in H1 |- *.
      - destruct H1 as [Hv Hcut]. rewrite (nat_ltb_true (cut_lt Hcut Hv)), (cut_dup Hcut). reflexivity.
      - destruct H1 as [-> ->]. reflexivity. }
    rewrite E0, E1. cbn [rbind fst snd]. rewrite <- Ht.
    eexists. split; [reflexivity|]. split.
    - subst k. destruct s as [? ? ? ? ? ? ? ? ? ? ? ? ? ? ? [] ?]; reflexivity.
    - assert (Hnil : cut src (cur + 1) (cur + 1) []) by (apply cut_nil; lia).
      destruct s as [? ? ? ? ? ? ? ? ? ? ? ? ? ? ? [] ?]; cbn; repeat split; try apply Ho; apply Hnil. }
  unfold a_close. destruct o as [|x o].
  - destruct Ho as [Ho1 Ho2]. rewrite Ho1, Ho2. cbn [Nat.ltb Nat.leb].
    apply Hfin; auto. split; assumption.
  - pose proof (cut_lt Ho ltac:(discriminate)) as Hlt. rewrite (nat_ltb_true Hlt).
    destruct Ho as (Ha & Hb & Hc').
    assert (E : (t_op_end s <=? length src) = true) by (apply Nat.leb_le; lia). rewrite E, Hc'.
    destruct (op_of (x :: o)) as [op|].
    + apply Hfin; auto. split; reflexivity.
    + sim_fail.
Qed.

Lemma core_text s t : k_text (core_of s) t = core_of (t_set_lstrip (t_set_ast s
   (t_ast s ++ [Node TContent ONone (Some (if t_lstrip s then lstrip (cstr t) else cstr t)) None])) false).
Proof. reflexivity. Qed.

Lemma snoc_neq (A : Type) (l : list A) x : l ++ [x] <> [].
Proof. destruct l; discriminate. Qed.

Lemma sim_step src cur s k p c : nth_error src cur = Some c -> rep src cur s k p ->
  sim src cur (t_step src cur s c (Nat.eqb cur (length src - 1)))
              (a_step k p c (Nat.eqb cur (length src - 1))).
Proof.
  intros Hn Hr. assert (Hc : cur < length src) by (apply nth_error_Some; congruence).
  assert (Hone := cut_one Hn).
  assert (Hsn : forall lo t, cut src lo cur t -> cut src lo (cur + 1) (t ++ [c])) by (intros; eapply cut_snoc; eauto).
  destruct p; destruct Hr as (Hk & Hp); cbn [rep_phase d0_ok d1_ok op_ok] in Hp;
    destruct Hp as (Hs & Hp); unfold t_step; rewrite Hs; cbn [a_step].
  - (* text *)
    destruct Hp as (Ht & Hcut & Ho & H2).
    assert (Hpush : exists s1, (if cur =? length src - 1 then push_content s src (t_start s) (length src) else Ok s) = Ok s1
       /\ core_of s1 = (if cur =? length src - 1 then k_text k (t ++ [c]) else k)
       /\ t_state s1 = SStart /\ t_type s1 = TContent /\ t_start s1 = t_start s /\ op_idle s1 /\ two_idle s1).
    { destruct (Nat.eqb_spec cur (length src - 1)) as [E|E].
      - unfold push_content. assert (EL : length src = cur + 1) by lia. rewrite EL.
        rewrite (cut_dup (Hsn _ _ Hcut)). cbn [rbind]. rewrite Ht.
        eexists. split; [reflexivity|]. split; [rewrite <- Hk, core_text; reflexivity|]. cbn. tauto.
      - exists s. tauto. }
    destruct Hpush as (s1 & E1 & Ek & Es1 & Et1 & Est & Ho1 & H21). rewrite E1. cbn [rbind].
    destruct (c == "{"%char) eqn:E.
    + apply eqb_true in E. subst c. unfold tgo. eexists. split; [reflexivity|]. split; [exact Ek|]. cbn.
      rewrite Est. pose proof (Hsn _ _ Hcut). tauto.
    + eexists. split; [reflexivity|]. split; [exact Ek|]. cbn. rewrite Est. pose proof (Hsn _ _ Hcut). tauto.
  - (* open *)
    destruct Hp as (Ht & Hcut & Hcur & Ho & H2).
    destruct ((c == "%"%char) || (c == "{"%char)) eqn:E.
    + assert (Hlt : t_end s < cur + 1).
      { apply cut_length in Hcut as L1. apply cut_length in Hcur as L2. rewrite app_length in L2. simpl in L2.
        destruct Hcur. destruct Hcut. lia. }
      destruct t as [|x t].
      * apply cut_length in Hcut as L. simpl in L. destruct Hcut. cbn [t_set_state t_start t_end].
        rewrite nat_ltb_false by lia.
        destruct (c == "%"%char); (eexists; split; [reflexivity|]; split; [exact Hk|]; cbn; tauto).
      * cbn [t_set_state t_start t_end]. rewrite (nat_ltb_true (cut_lt Hcut ltac:(discriminate))).
        unfold push_content. rewrite (cut_dup Hcut). cbn [rbind t_set_state t_type]. rewrite Ht.
        destruct (c == "%"%char); (eexists; split; [reflexivity|]; split; [rewrite <- Hk, core_text; reflexivity|]; cbn; tauto).
    + eexists. split; [reflexivity|]. split; [exact Hk|]. cbn. pose proof (Hsn _ _ Hcur) as Hx.
      rewrite <- app_assoc in Hx. simpl in Hx. tauto.
  - (* clean *)
    destruct (c == "-"%char).
    + eexists. split; [reflexivity|]. split; [rewrite <- Hk; reflexivity|]. cbn. destruct Hp as [Hp ?]. split; [reflexivity|]. split; [lia|]. tauto.
    + apply sim_block_start; auto. split; [exact Hk|]. cbn. tauto.
  - apply sim_block_start; auto. split; [exact Hk|]. cbn. tauto.
  - (* keyword *)
    destruct (is_lower c) eqn:E.
    + unfold step_block_type. rewrite E. eexists. split; [reflexivity|]. split; [exact Hk|]. cbn.
      destruct Hp as (Hcut & Hp). pose proof (Hsn _ _ Hcut). tauto.
    + apply sim_keyword; auto. split; [exact Hk|]. cbn. tauto.
  - (* block name *)
    destruct (isspace c); [eexists; split; [reflexivity|]; split; [exact Hk|]; cbn; tauto|].
    destruct (is_lower c); [|sim_fail].
    eexists; split; [reflexivity|]; split; [exact Hk|]; cbn. destruct Hp as (Ht & Hp).
    split; [reflexivity|]. split; [exact Ht|]. split; [discriminate|]. tauto.
  - destruct Hp as (Ht & Hw & Hcut & Hp).
    destruct (is_lower c || (c == "_"%char)).
    + eexists; split; [reflexivity|]; split; [exact Hk|]; cbn. pose proof (Hsn _ _ Hcut). pose proof (@snoc_neq _ w c). tauto.
    + destruct (isspace c); [|sim_fail]. cbv zeta. rewrite !(cut_word _ Hcut). unfold block_name.
      destruct (beq w (B "entry") || beq w (B "listing") || beq w (B "listing_once")
                || beq w (B "listing_empty") || beq w (B "listing_entry")); [|sim_fail].
      eexists; split; [reflexivity|]; split; [rewrite <- Hk; reflexivity|]; cbn. tauto.
  - (* if start *)
    destruct (isspace c); [eexists; split; [reflexivity|]; split; [exact Hk|]; cbn; tauto|].
    destruct (is_upper c); [|sim_fail].
    eexists; split; [reflexivity|]; split; [exact Hk|]; cbn. destruct Hp as (Ht & Hp).
    split; [reflexivity|]. split; [exact Ht|]. split; [discriminate|]. tauto.
  - destruct Hp as (Ht & Hw & Hcut & Hp).
    destruct (var_char c).
    + eexists; split; [reflexivity|]; split; [exact Hk|]; cbn. pose proof (Hsn _ _ Hcut). pose proof (@snoc_neq _ v c). tauto.
    + destruct (isspace c); [|sim_fail]. rewrite Ht. unfold tgo, ago.
      eexists; split; [reflexivity|]; split; [rewrite <- Hk; reflexivity|]. destruct ty; cbn; tauto.
  - (* operator *)
    destruct (isspace c); [eexists; split; [reflexivity|]; split; [exact Hk|]; cbn; tauto|].
    eexists; split; [reflexivity|]; split; [exact Hk|]; cbn. destruct Hp as (Ht & H0 & Ho & H2).
    assert ([c] <> []) by discriminate. tauto.
  - destruct Hp as (Ht & H0 & Hne & Hcut & H2).
    destruct (negb (isspace c)).
    + eexists; split; [reflexivity|]; split; [exact Hk|]; cbn. pose proof (Hsn _ _ Hcut). pose proof (@snoc_neq _ o c). tauto.
    + eexists; split; [reflexivity|]; split; [exact Hk|]; cbn. destruct o; [congruence|]. cbn. tauto.
  - destruct Hp as (Ht & H0 & Ho & H2).
    destruct (isspace c); [eexists; split; [reflexivity|]; split; [exact Hk|]; cbn; destruct o; tauto|].
    assert ([c] <> []) by discriminate.
    destruct (is_upper c).
    { eexists; split; [reflexivity|]; split; [exact Hk|]; cbn. destruct o; tauto. }
    destruct (c == DQ); [|sim_fail].
    eexists; split; [reflexivity|]; split; [exact Hk|]; cbn. destruct o; tauto.
  - (* string operand *)
    destruct Hp as (Ht & H0 & Ho & Hq & Hcut). pose proof (Hsn _ _ Hcut) as Hcut'. pose proof (@snoc_neq _ q c) as Hq'.
    destruct (negb (c == DQ)); [eexists; split; [reflexivity|]; split; [exact Hk|]; cbn; destruct o; tauto|].
    rewrite (cut_last Hcut Hq). cbn [rbind].
    destruct (last q NUL == BSL); (eexists; split; [reflexivity|]; split; [exact Hk|]; cbn; destruct o; tauto).
  - destruct Hp as (Ht & H0 & Ho & Hq & Hcut). pose proof (Hsn _ _ Hcut) as Hcut'. pose proof (@snoc_neq _ q c) as Hq'.
    destruct (var_char c); (eexists; split; [reflexivity|]; split; [exact Hk|]; cbn; destruct o; tauto).
  - (* foreach *)
    destruct (isspace c); [eexists; split; [reflexivity|]; split; [exact Hk|]; cbn; tauto|].
    destruct (is_upper c); [|sim_fail].
    eexists; split; [reflexivity|]; split; [exact Hk|]; cbn. destruct Hp as (Ht & Hp).
    split; [reflexivity|]. split; [exact Ht|]. split; [discriminate|]. tauto.
  - destruct Hp as (Ht & Hw & Hcut & Hp).
    destruct (var_char c).
    + eexists; split; [reflexivity|]; split; [exact Hk|]; cbn. pose proof (Hsn _ _ Hcut). pose proof (@snoc_neq _ v c). tauto.
    + destruct (isspace c); [|sim_fail].
      eexists; split; [reflexivity|]; split; [exact Hk|]. cbn; tauto.
  - (* end of statement *)
    destruct (isspace c); [eexists; split; [reflexivity|]; split; [exact Hk|]; cbn; destruct o; tauto|].
    destruct (c == "-"%char).
    + eexists; split; [reflexivity|]; split; [rewrite <- Hk; reflexivity|]; cbn; destruct o; tauto.
    + apply sim_block_end; auto. split; [exact Hk|]. cbn. destruct o; tauto.
  - apply sim_block_end; auto. split; [exact Hk|]. cbn. tauto.
  - (* variable *)
    destruct (isspace c); [eexists; split; [reflexivity|]; split; [exact Hk|]; cbn; tauto|].
    destruct (is_upper c); [|sim_fail].
    eexists; split; [reflexivity|]; split; [exact Hk|]; cbn. assert ([c] <> []) by discriminate. tauto.
  - destruct Hp as (Ht & Hw & Hcut & Hp).
    destruct (var_char c).
    + eexists; split; [reflexivity|]; split; [exact Hk|]; cbn. pose proof (Hsn _ _ Hcut). pose proof (@snoc_neq _ v c). tauto.
    + destruct (isspace c); [eexists; split; [reflexivity|]; split; [exact Hk|]; cbn; tauto|].
      destruct (c == "}"%char); [|sim_fail].
      eexists; split; [reflexivity|]; split; [exact Hk|]; cbn; tauto.
  - destruct (isspace c); [eexists; split; [reflexivity|]; split; [exact Hk|]; cbn; tauto|].
    destruct (c == "}"%char); [|sim_fail].
    eexists; split; [reflexivity|]; split; [exact Hk|]; cbn; tauto.
  - (* close *)
    destruct (c == "}"%char); [|sim_fail].
    apply sim_close; auto. split; [exact Hk|]. cbn. tauto.
Qed.

Definition same (r : res (list tnode + terror)) (a : list tnode + tmsg) (n : nat) : Prop :=
  match a with
  | inl ast => r = Ok (inl ast)
  | inr m => exists at_, r = Ok (inr (TErr m at_)) /\ (match at_ with Some i => i < n | None => True end)
  end.

Lemma sim_finish src cur s k p : rep src cur s k p -> same (Ok (t_finish s)) (a_finish k p) (length src).
Proof.
  intros (Hk & Hp). unfold t_finish.
  destruct p; destruct Hp as (Hs & Hp); rewrite Hs;
    try (subst k; cbn; destruct (negb (t_ifs s =? 0)); [eexists; split; [reflexivity|exact I]|];
         destruct (t_block s); [eexists; split; [reflexivity|exact I]|];
         destruct (t_foreach s); [eexists; split; [reflexivity|exact I]|reflexivity]).
  cbn. eexists. split; [reflexivity|]. destruct Hp as (_ & _ & _ & Hq & Hcut).
  pose proof (cut_lt Hcut Hq). destruct Hcut as (? & ? & ?). lia.
Qed.

Lemma sim_loop src q : forall p0 fuel s k p, src = p0 ++ q -> length q < fuel ->
  rep src (length p0) s k p ->
  same (t_loop fuel src (length p0) s)
       (match a_run k p q with inl (k', p') => a_finish k' p' | inr m => inr m end) (length src).
Proof.
  induction q as [|c q IH]; intros p0 fuel s k p Hsrc Hf Hr; (destruct fuel as [|fuel]; [simpl in Hf; lia|]); cbn [t_loop].
  - rewrite nat_ltb_false by (subst; rewrite app_nil_r; lia). cbn. eapply sim_finish, Hr.
  - assert (Hn : nth_error src (length p0) = Some c) by (subst src; apply nth_error_mid).
    assert (Hlt : length p0 < length src) by (apply nth_error_Some; congruence).
    rewrite (nat_ltb_true Hlt). unfold rd. rewrite Hn. cbn [rbind].
    assert (El : (length p0 =? length src - 1) = nilb q).
    { subst src. rewrite app_length. cbn [length]. destruct q; cbn [nilb length];
        [apply Nat.eqb_eq; lia|apply Nat.eqb_neq; lia]. }
    pose proof (sim_step Hn Hr) as Hsim. rewrite El in *. cbn [a_run].
    unfold sim in Hsim. destruct (a_step k p c (nilb q)) as [[k' p']|m].
    + destruct Hsim as (s' & E & Hr'). rewrite E. cbn [rbind].
      replace (length p0 + 1) with (length (p0 ++ [c])) in * by (rewrite app_length; reflexivity).
      apply IH; auto; [subst src; rewrite <- app_assoc; reflexivity|simpl in Hf; lia].
    + destruct Hsim as (at_ & E & Hat). rewrite E. cbn [rbind]. exists at_. auto.
Qed.

(* the parser of the C model and the automaton agree on every buffer *)
Theorem template_parse_abs src : same (template_parse src) (a_parse src) (length src).
Proof.
  unfold template_parse, a_parse.
  apply (@sim_loop src src [] (S (length src)) init_tst k_init (PText [])); auto.
  split; [reflexivity|]. cbn. split; [reflexivity|]. split; [reflexivity|].
  split; [apply cut_nil; lia|]. split; split; reflexivity.
Qed.
