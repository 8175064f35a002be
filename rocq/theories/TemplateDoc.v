(* Every template the parser accepts is a document of TemplateSpec.v, possibly
   followed by an unfinished tag, and its nodes are those of the document. *)
From Verif Require Import Base Utils Template TemplateAbs TemplateSpec.

(* the discipline of the statements, as the parser applies it *)
Record sst : Type := Sst { s_ifs : nat; s_blk : option (nat * bool); s_else : bool; s_fe : bool }.
Definition s_init : sst := Sst 0 None false false.

Definition s_open_if (s : sst) : bool :=
  match s_blk s with Some (b, _) => Nat.ltb b (s_ifs s) | None => Nat.ltb 0 (s_ifs s) end.

Definition s_step (s : sst) (ty : ntype) : option sst :=
  match ty with
  | TVariable | TContent => Some s
  | TIf | TIfdef | TIfndef => Some (Sst (s_ifs s + 1) (s_blk s) false (s_fe s))
  | TElse => if s_open_if s && negb (s_else s) then Some (Sst (s_ifs s) (s_blk s) true (s_fe s)) else None
  | TEndif => if s_open_if s then Some (Sst (s_ifs s - 1) (s_blk s) false (s_fe s)) else None
  | TForeach => if s_fe s then None else Some (Sst (s_ifs s) (s_blk s) (s_else s) true)
  | TEndforeach =>
      if s_fe s && (match s_blk s with Some (_, f) => negb f | None => true end)
      then Some (Sst (s_ifs s) (s_blk s) (s_else s) false) else None
  | TBlock => match s_blk s with
              | None => Some (Sst (s_ifs s) (Some (s_ifs s, s_fe s)) (s_else s) (s_fe s))
              | Some _ => None
              end
  | TEndblock =>
      match s_blk s with
      | Some (b, f) => if Nat.eqb (s_ifs s) b && (f || negb (s_fe s))
                       then Some (Sst (s_ifs s) None (s_else s) (s_fe s)) else None
      | None => None
      end
  end.

Fixpoint s_run (s : sst) (l : list ntype) : option sst :=
  match l with
  | [] => Some s
  | ty :: r => match s_step s ty with Some s' => s_run s' r | None => None end
  end.

Definition s_final (s : sst) : bool :=
  Nat.eqb (s_ifs s) 0 && (match s_blk s with None => true | Some _ => false end) && negb (s_fe s).

Lemma s_run_app s a b : s_run s (a ++ b) = match s_run s a with Some s' => s_run s' b | None => None end.
Proof.
  revert s; induction a as [|ty a IH]; intro s; simpl; [reflexivity|]. destruct (s_step s ty); auto.
Qed.

(* the parser's counters *)
Definition core_st (k : acore) (s : sst) : Prop :=
  k_ifs k = s_ifs s /\ k_else k = s_else s /\ k_fe k = s_fe s /\
  match s_blk s with
  | Some (b, f) => k_block k = true /\ k_bifs k = b /\ k_bfe k = f
  | None => k_block k = false
  end.

(* nodes, accumulated the way the parser does *)
Definition push_item (st : list tnode * bool) (i : item) : list tnode * bool :=
  let (ast, cl) := st in
  match i with
  | IText t => (ast ++ [Node TContent ONone (Some (if cl then lstrip (cstr t) else cstr t)) None], false)
  | IVar _ _ _ => (ast ++ [item_node i], cl)
  | ITag ld _ _ _ _ _ _ rd => ((if ld then rstrip_last ast else ast) ++ [item_node i], cl || rd)
  end.
Definition push_items (l : list item) : list tnode * bool := fold_left push_item l ([], false).

Definition item_type (i : item) : ntype :=
  match i with IText _ => TContent | IVar _ _ _ => TVariable | ITag _ ty _ _ _ _ _ _ => ty end.

Lemma push_items_snoc l i : push_items (l ++ [i]) = push_item (push_items l) i.
Proof. unfold push_items. rewrite fold_left_app. reflexivity. Qed.

Lemma items_text_snoc l i : items_text (l ++ [i]) = items_text l ++ item_text i.
Proof. unfold items_text. rewrite map_app, concat_app. simpl. rewrite app_nil_r. reflexivity. Qed.

(* blanks and names, extended by one byte *)
Lemma blanks_snoc w c : blanks w -> isspace c = true -> blanks (w ++ [c]).
Proof. unfold blanks. intros. rewrite forallb_app. simpl. rewrite H, H0. reflexivity. Qed.
Lemma blanks1_snoc w c : blanks w -> isspace c = true -> blanks1 (w ++ [c]).
Proof. intros. split; [apply blanks_snoc; auto|apply snoc_neq]. Qed.
Lemma blanks1_one c : isspace c = true -> blanks1 [c].
Proof. intro. split; [|discriminate]. unfold blanks. simpl. rewrite H. reflexivity. Qed.
Lemma blanks_nil : blanks []. Proof. reflexivity. Qed.
Lemma name_snoc v c : name_ok v -> var_char c = true -> name_ok (v ++ [c]).
Proof.
  destruct v as [|x v]; simpl; [tauto|]. intros [H1 H2] H. split; [assumption|].
  rewrite forallb_app, H2. simpl. rewrite H. reflexivity.
Qed.
Lemma name_one c : is_upper c = true -> name_ok [c].
Proof. simpl. auto. Qed.

Lemma body_snoc ty d0 o d1 b c : body ty d0 o d1 b -> isspace c = true -> body ty d0 o d1 (b ++ [c]).
Proof.
  intros H Hc. destruct H; rewrite <- ?app_assoc; cbn [app]; rewrite <- ?app_assoc; cbn [app].
  - apply BClose; auto. apply blanks1_snoc; [apply H1|auto].
  - apply BNamed; auto. apply blanks1_snoc; [apply H3|auto].
  - apply BBlock; auto. apply blanks1_snoc; [apply H2|auto].
  - apply BIfString; auto. apply blanks_snoc; auto.
  - apply BIfVar; auto. apply blanks_snoc; auto.
Qed.

Lemma text_ok_app a b : text_ok a = true -> text_ok (a ++ b) = text_ok b.
Proof.
  induction a as [|c a IH]; intro H; [reflexivity|].
  cbn [text_ok app] in *. apply andb_true_iff in H. destruct H as [H1 H2].
  specialize (IH H2). destruct (c == "{"%char).
  - destruct a as [|d a]; [discriminate|]. cbn [app] in *. rewrite H1. exact IH.
  - exact IH.
Qed.

Lemma text_ok_snoc t c : text_ok t = true -> (c == "{"%char) = false -> text_ok (t ++ [c]) = true.
Proof. intros H E. rewrite text_ok_app by assumption. cbn [text_ok]. rewrite E. reflexivity. Qed.

Lemma text_ok_brace t c : text_ok t = true -> ((c == "%"%char) || (c == "{"%char)) = false ->
  text_ok (t ++ ["{"%char; c]) = true.
Proof.
  intros H E. rewrite text_ok_app by assumption. cbn [text_ok]. rewrite eqb_refl.
  apply orb_false_iff in E. destruct E as [E1 E2]. rewrite E1, E2. reflexivity.
Qed.

(* operators *)
Lemma op_of_means o op : o <> [] -> op_of o = Some op -> op_means o op.
Proof.
  intros Hne H. right. unfold op_of in H.
  destruct (length o =? 1).
  - destruct (beq_spec o (B "<")); [inv H; simpl; tauto|].
    destruct (beq_spec o (B ">")); [inv H; simpl; tauto|discriminate].
  - destruct (length o =? 2); [|discriminate].
    repeat match type of H with (if beq ?a ?b then _ else _) = _ => destruct (beq_spec a b); [inv H; simpl; tauto|] end.
    discriminate.
Qed.

(* quoted operands *)
Fixpoint quoted_part (prev : ascii) (b : bytes) : bool :=
  match b with
  | [] => true
  | c :: r => (if c == DQ then prev == BSL else true) && quoted_part c r
  end.

Lemma last_cons (A : Type) (d x : A) l : last (x :: l) d = last l x.
Proof.
  revert d x. induction l as [|y l IH]; intros d x; [reflexivity|].
  change (last (x :: y :: l) d) with (last (y :: l) d). rewrite !IH. reflexivity.
Qed.

Lemma quoted_part_snoc p b c : quoted_part p b = true ->
  (if c == DQ then last (p :: b) NUL == BSL else true) = true -> quoted_part p (b ++ [c]) = true.
Proof.
  revert p; induction b as [|x b IH]; intros p H Hc.
  - cbn [app quoted_part]. rewrite andb_true_r. exact Hc.
  - cbn [app quoted_part] in *. apply andb_true_iff in H. destruct H as [H1 H2]. rewrite H1. cbn [andb].
    apply IH; [assumption|exact Hc].
Qed.

Lemma quoted_part_close p b : quoted_part p b = true -> (last (p :: b) NUL == BSL) = false ->
  quoted_from p b = true.
Proof.
  revert p; induction b as [|x b IH]; intros p H Hl.
  - cbn in *. rewrite Hl. reflexivity.
  - cbn [quoted_part quoted_from] in *. apply andb_true_iff in H. destruct H as [H1 H2]. rewrite H1. cbn [andb].
    apply IH; [assumption|exact Hl].
Qed.

(* what has been read of a statement: from "{%" on *)
Definition opened (ld : bool) (b : bytes) : bytes := B "{%" ++ dash ld ++ b.

(* how a phase reads the bytes since the last complete item, the statement type
   already accounted for in the counters, and whether a cleaner was seen *)
Definition part (p : phase) (x : bytes) (ty : ntype) (ld rd : bool) : Prop :=
  match p with
  | PText t => x = t /\ text_ok t = true /\ ty = TContent /\ ld = false /\ rd = false
  | POpen t => x = t ++ B "{" /\ text_ok t = true /\ ty = TContent /\ ld = false /\ rd = false
  | PClean => x = B "{%" /\ ty = TContent /\ ld = false /\ rd = false
  | PStart => exists w, x = opened ld w /\ blanks w /\ ty = TContent /\ rd = false
  | PKw k => exists w, x = opened ld (w ++ k) /\ blanks w /\ ty = TContent /\ rd = false
  | PBBStart => exists w s, x = opened ld (w ++ keyword TBlock ++ s) /\ blanks w /\ blanks1 s /\
                  ty = TContent /\ rd = false
  | PBB n => exists w s, x = opened ld (w ++ keyword TBlock ++ s ++ n) /\ blanks w /\ blanks1 s /\
                  ty = TContent /\ rd = false
  | PIfStart ty' => exists w s, x = opened ld (w ++ keyword ty ++ s) /\ blanks w /\ blanks1 s /\
                  ty = ty' /\ is_if ty = true /\ rd = false
  | PIfVar ty' v => exists w s, x = opened ld (w ++ keyword ty ++ s ++ v) /\ blanks w /\ blanks1 s /\
                  name_ok v /\ ty = ty' /\ is_if ty = true /\ rd = false
  | POpStart v => exists w s s2, x = opened ld (w ++ keyword TIf ++ s ++ v ++ s2) /\ blanks w /\ blanks1 s /\
                  name_ok v /\ blanks1 s2 /\ ty = TIf /\ rd = false
  | POp v o => exists w s s2, x = opened ld (w ++ keyword TIf ++ s ++ v ++ s2 ++ o) /\ blanks w /\ blanks1 s /\
                  name_ok v /\ blanks1 s2 /\ o <> [] /\ forallb (fun c => negb (isspace c)) o = true /\
                  ty = TIf /\ rd = false
  | POperandStart v o => exists w s s2 s3, x = opened ld (w ++ keyword TIf ++ s ++ v ++ s2 ++ o ++ s3) /\
                  blanks w /\ blanks1 s /\ name_ok v /\ blanks1 s2 /\ o <> [] /\
                  forallb (fun c => negb (isspace c)) o = true /\ blanks1 s3 /\ ty = TIf /\ rd = false
  | PStr v o q => exists w s s2 s3 b, x = opened ld (w ++ keyword TIf ++ s ++ v ++ s2 ++ o ++ s3 ++ DQ :: b) /\
                  blanks w /\ blanks1 s /\ name_ok v /\ blanks1 s2 /\ o <> [] /\
                  forallb (fun c => negb (isspace c)) o = true /\ blanks1 s3 /\ q = DQ :: b /\
                  quoted_part DQ b = true /\ ty = TIf /\ rd = false
  | PVarOp v o q => exists w s s2 s3, x = opened ld (w ++ keyword TIf ++ s ++ v ++ s2 ++ o ++ s3 ++ q) /\
                  blanks w /\ blanks1 s /\ name_ok v /\ blanks1 s2 /\ o <> [] /\
                  forallb (fun c => negb (isspace c)) o = true /\ blanks1 s3 /\ name_ok q /\ ty = TIf /\ rd = false
  | PForStart => exists w s, x = opened ld (w ++ keyword TForeach ++ s) /\ blanks w /\ blanks1 s /\
                  ty = TForeach /\ rd = false
  | PForVar v => exists w s, x = opened ld (w ++ keyword TForeach ++ s ++ v) /\ blanks w /\ blanks1 s /\
                  name_ok v /\ ty = TForeach /\ rd = false
  | PEndClean ty' d0 o d1 => exists b, x = opened ld b /\ body ty d0 o d1 b /\ ty = ty' /\ rd = false
  | PEnd ty' d0 o d1 => exists b, x = opened ld (b ++ dash rd) /\ body ty d0 o d1 b /\ ty = ty' /\ rd = true
  | PVarStart => exists s1, x = B "{{" ++ s1 /\ blanks s1 /\ ty = TContent /\ ld = false /\ rd = false
  | PVar v => exists s1, x = B "{{" ++ s1 ++ v /\ blanks s1 /\ name_ok v /\ ty = TContent /\ ld = false /\ rd = false
  | PVarEnd v => exists s1 s2, x = B "{{" ++ s1 ++ v ++ s2 /\ blanks s1 /\ name_ok v /\ blanks s2 /\
                  ty = TContent /\ ld = false /\ rd = false
  | PClose ty' d0 o d1 =>
      (ty' = TVariable /\ ty = TContent /\ ld = false /\ rd = false /\ o = [] /\ d1 = None /\
       exists v s1 s2, d0 = Some v /\ x = B "{{" ++ s1 ++ v ++ s2 ++ B "}" /\ blanks s1 /\ name_ok v /\ blanks s2)
      \/ (ty = ty' /\ exists b, x = opened ld (b ++ dash rd ++ B "%") /\ body ty d0 o d1 b)
  end.

(* the last item is no text: kept while reading a text *)
Definition no_text_last (l : list item) : bool :=
  match rev l with IText _ :: _ => false | _ => true end.

Definition reading_text (p : phase) : bool := match p with PText _ | POpen _ => true | _ => false end.

(* the invariant: [done] is what has been read *)
Definition inv_at (done : bytes) (k : acore) (p : phase) : Prop :=
  exists l x ty ld rd ast cl s s',
    done = items_text l ++ x /\ items_ok l /\ (reading_text p = true -> no_text_last l = true) /\
    part p x ty ld rd /\
    push_items l = (ast, cl) /\ k_ast k = (if ld then rstrip_last ast else ast) /\ k_lstrip k = cl || rd /\
    s_run s_init (map item_type l) = Some s /\ s_step s ty = Some s' /\
    (match p with
     | PBBStart | PBB _ => core_st k s' /\ s_blk s' = None /\ k_bifs k = k_ifs k /\ k_bfe k = k_fe k
     | _ => core_st k s'
     end).

Lemma separated_snoc l i : separated l = true -> (is_text i = true -> no_text_last l = true) ->
  separated (l ++ [i]) = true.
Proof.
  unfold no_text_last. induction l as [|a l IH]; intros H Hi; [reflexivity|].
  destruct l as [|b l].
  - cbn in *. destruct a, i; cbn in *; try reflexivity. specialize (Hi eq_refl). discriminate.
  - cbn [app separated] in *. apply andb_true_iff in H. destruct H as [H1 H2]. rewrite H1. cbn [andb].
    apply IH; [assumption|]. intro Ht. specialize (Hi Ht). cbn [rev] in Hi.
    cbn [rev]. destruct (rev l ++ [b]) as [|z w] eqn:E; [destruct (rev l); discriminate|]. exact Hi.
Qed.

Lemma items_ok_snoc l i : items_ok l -> item_ok i -> (is_text i = true -> no_text_last l = true) ->
  items_ok (l ++ [i]).
Proof.
  intros [H1 H2] Hi Ht. split; [apply Forall_app; split; auto|apply separated_snoc; auto].
Qed.

Lemma no_text_last_snoc l i : no_text_last (l ++ [i]) = negb (is_text i).
Proof. unfold no_text_last. rewrite rev_app_distr. simpl. destruct i; reflexivity. Qed.

Lemma core_text_st k t s : core_st k s -> core_st (k_text k t) s.
Proof. unfold core_st. destruct s as [a [[b f]|] c d]; simpl; tauto. Qed.

Ltac fin := repeat (progress (cbn; rewrite <- ?app_assoc)); reflexivity.

Lemma name_no_nul v : name_ok v -> cstr v = v.
Proof.
  intro H. apply cstr_id. destruct v as [|c v]; [destruct H|]. destruct H as [H1 H2].
  intros [E|E].
  - subst c. discriminate.
  - rewrite forallb_forall in H2. specialize (H2 _ E). discriminate.
Qed.

Lemma body_d0 ty d0 o d1 b : body ty d0 o d1 b -> option_map cstr d0 = d0.
Proof.
  intro H; destruct H; simpl; try reflexivity; try (rewrite name_no_nul by assumption; reflexivity).
  simpl in H1. repeat (destruct H1 as [H1|H1]; [subst v; reflexivity|]). destruct H1.
Qed.

Lemma keyword_eq w ty : w = keyword ty -> w <> [] -> beq w (keyword ty) = true.
Proof. intros -> _. apply beq_refl. Qed.

Ltac igo H := unfold ago in H; injection H as <- <-;
  try match goal with E : ?w = B _ |- _ => subst w | E : ?w = keyword _ |- _ => subst w end.

Lemma inv_step done k p c k' p' :
  inv_at done k p -> a_step k p c false = inl (k', p') -> inv_at (done ++ [c]) k' p'.
Proof.
  intros (l & x & ty & ld & rd & ast & cl & s & s' & Hd & Hok & Hnt & Hpart & Hpush & Hast & Hls & Hrun & Hstep & Hcore) Hgo.
  subst done. destruct p; cbn [a_step] in Hgo; cbn [part] in Hpart.
  - (* PText *)
    destruct Hpart as (-> & Htok & -> & -> & ->).
    destruct (c == "{"%char) eqn:E; igo Hgo.
    + apply eqb_true in E. subst c.
      exists l, (t ++ B "{"), TContent, false, false, ast, cl, s, s'.
      split; [rewrite <- app_assoc; reflexivity|]. split; [auto|]. split; [auto|]. split; [cbn; auto|]. auto 14.
    + exists l, (t ++ [c]), TContent, false, false, ast, cl, s, s'.
      split; [rewrite <- app_assoc; reflexivity|]. split; [auto|]. split; [auto|].
      split; [cbn; auto using text_ok_snoc|]. auto 14.
  - (* POpen *)
    destruct Hpart as (-> & Htok & -> & -> & ->).
    destruct ((c == "%"%char) || (c == "{"%char)) eqn:E; igo Hgo.
    + (* a tag begins: the text becomes an item *)
      assert (Hcase : exists l1 ast1 cl1,
        items_text l ++ t ++ B "{" = items_text l1 ++ B "{" /\ items_ok l1 /\ push_items l1 = (ast1, cl1) /\
        s_run s_init (map item_type l1) = Some s /\
        k_ast (match t with [] => k | _ => k_text k t end) = ast1 /\
        k_lstrip (match t with [] => k | _ => k_text k t end) = cl1 /\
        core_st (match t with [] => k | _ => k_text k t end) s').
      { destruct t as [|y t].
        - exists l, ast, cl. rewrite orb_false_r in Hls. auto 14.
        - exists (l ++ [IText (y :: t)]), (ast ++ [Node TContent ONone (Some (if cl then lstrip (cstr (y :: t)) else cstr (y :: t))) None]), false.
          rewrite items_text_snoc, push_items_snoc, Hpush. rewrite map_app, s_run_app, Hrun. cbn [item_text].
          split; [rewrite <- app_assoc; reflexivity|]. split; [apply items_ok_snoc; cbn; auto; split; [discriminate|auto]|].
          rewrite orb_false_r in Hls. cbn [k_text k_push k_ast k_lstrip]. rewrite Hast, Hls.
          split; [reflexivity|]. split; [reflexivity|]. split; [reflexivity|]. split; [reflexivity|]. apply core_text_st, Hcore. }
      destruct Hcase as (l1 & ast1 & cl1 & Hd1 & Hok1 & Hp1 & Hr1 & Ha1 & Hl1 & Hc1).
      set (k1 := match t with [] => k | _ => k_text k t end) in *.
      destruct (c == "%"%char) eqn:E1.
      * apply eqb_true in E1. subst c.
        exists l1, (B "{%"), TContent, false, false, ast1, cl1, s, s'. rewrite orb_false_r.
        split; [rewrite Hd1, <- app_assoc; reflexivity|]. split; [auto|]. split; [discriminate|].
        split; [cbn; auto|]. auto 14.
      * cbn in E. apply eqb_true in E. subst c.
        exists l1, (B "{{" ++ []), TContent, false, false, ast1, cl1, s, s'. rewrite orb_false_r.
        split; [rewrite Hd1, <- app_assoc; reflexivity|]. split; [auto|]. split; [discriminate|].
        split; [exists []; cbn; auto 9 using blanks_nil|]. auto 12.
    + exists l, (t ++ ["{"%char; c]), TContent, false, false, ast, cl, s, s'.
      split; [rewrite <- !app_assoc; reflexivity|]. split; [auto|]. split; [auto|].
      split; [cbn; auto using text_ok_brace|]. auto 14.
  - (* PClean *)
    destruct Hpart as (-> & -> & -> & ->).
    destruct (c == "-"%char) eqn:E.
    + apply eqb_true in E. subst c. igo Hgo.
      exists l, (opened true []), TContent, true, false, ast, cl, s, s'.
      split; [rewrite <- app_assoc; reflexivity|]. split; [auto|]. split; [discriminate|].
      split; [exists []; auto using blanks_nil|]. split; [auto|]. split; [cbn; rewrite Hast; reflexivity|]. auto 14.
    + unfold a_block_start in Hgo. destruct (isspace c) eqn:Es.
      * igo Hgo. exists l, (opened false [c]), TContent, false, false, ast, cl, s, s'.
        split; [rewrite <- app_assoc; reflexivity|]. split; [auto|]. split; [discriminate|].
        split; [exists [c]; split; [auto|]; split; [apply blanks1_one, Es|auto]|]. auto 14.
      * destruct (is_lower c) eqn:El; [|destruct (c == "-"%char); discriminate]. igo Hgo.
        exists l, (opened false [c]), TContent, false, false, ast, cl, s, s'.
        split; [rewrite <- app_assoc; reflexivity|]. split; [auto|]. split; [discriminate|].
        split; [exists []; auto using blanks_nil|]. auto 14.
  - (* PStart *)
    destruct Hpart as (w & -> & Hw & -> & ->). unfold a_block_start in Hgo. destruct (isspace c) eqn:Es.
    * igo Hgo. exists l, (opened ld (w ++ [c])), TContent, ld, false, ast, cl, s, s'.
      split; [unfold opened; fin|]. split; [auto|]. split; [discriminate|].
      split; [exists (w ++ [c]); auto using blanks_snoc|]. auto 14.
    * destruct (is_lower c) eqn:El; [|destruct (c == "-"%char); discriminate]. igo Hgo.
      exists l, (opened ld (w ++ [c])), TContent, ld, false, ast, cl, s, s'.
      split; [unfold opened; fin|]. split; [auto|]. split; [discriminate|].
      split; [exists w; auto|]. auto 14.
  - (* PKw *)
    destruct Hpart as (w0 & -> & Hw & -> & ->).
    destruct (is_lower c) eqn:El.
    { igo Hgo. exists l, (opened ld (w0 ++ w ++ [c])), TContent, ld, false, ast, cl, s, s'.
      split; [unfold opened; fin|]. split; [auto|]. split; [discriminate|].
      split; [exists w0; auto|]. auto 14. }
    destruct (isspace c) eqn:Es; [|discriminate]. injection Hstep as ->.
    destruct Hcore as (C1 & C2 & C3 & C4).
    assert (Hcl : forall ty, In ty [TElse; TEndif; TEndforeach; TEndblock] -> w = keyword ty ->
              exists b, opened ld (w0 ++ w) ++ [c] = opened ld b /\ body ty None [] None b /\ ty = ty /\ false = false).
    { intros ty Hin ->. exists (w0 ++ keyword ty ++ [c]). split; [unfold opened; fin|].
      split; [apply BClose; auto using blanks1_one|auto]. }
    assert (Hop : forall ty, w = keyword ty ->
              exists w1 s1, opened ld (w0 ++ w) ++ [c] = opened ld (w1 ++ keyword ty ++ s1) /\ blanks w1 /\ blanks1 s1).
    { intros ty ->. exists w0, [c]. split; [unfold opened; fin|]. auto using blanks1_one. }
    unfold a_keyword in Hgo. unfold a_open_if in Hgo.
    assert (Hoi : (k_block k && (k_bifs k <? k_ifs k)) || (negb (k_block k) && (0 <? k_ifs k)) = s_open_if s').
    { unfold s_open_if. destruct (s_blk s') as [[b f]|]; [destruct C4 as (-> & -> & _)|rewrite C4];
        rewrite C1; cbn [andb orb negb]; rewrite ?orb_false_r; reflexivity. }
    rewrite Hoi in Hgo.
    destruct (beq_spec w (B "block")) as [Ew|_].
    { destruct (k_block k) eqn:Ekb; [discriminate|]. igo Hgo.
      destruct (Hop TBlock eq_refl) as (w1 & s1 & Hx & Hw1 & Hs1).
      exists l, (opened ld (w0 ++ B "block") ++ [c]), TContent, ld, false, ast, cl, s', s'.
      split; [rewrite <- app_assoc; reflexivity|]. split; [auto|]. split; [discriminate|].
      split; [exists w1, s1; auto|]. repeat (split; [auto; fail|]).
      destruct (s_blk s') as [[b f]|] eqn:Eb; [destruct C4; congruence|].
      split; [|auto]. unfold core_st. rewrite Eb. auto. }
    destruct (beq_spec w (B "endblock")) as [Ew|_].
    { destruct (s_blk s') as [[b f]|] eqn:Eb; [destruct C4 as (C4 & C5 & C6)|]; [rewrite C4 in Hgo|rewrite C4 in Hgo; discriminate].
      destruct (Nat.eqb_spec (k_ifs k) (k_bifs k)) as [Ei|]; [|discriminate]. cbn [negb] in Hgo.
      destruct (negb (k_bfe k) && k_fe k) eqn:Ef; [discriminate|]. igo Hgo.
      exists l, (opened ld (w0 ++ B "endblock") ++ [c]), TEndblock, ld, false, ast, cl, s', (Sst (s_ifs s') None (s_else s') (s_fe s')).
      split; [rewrite <- app_assoc; reflexivity|]. split; [auto|]. split; [discriminate|].
      split; [apply Hcl; simpl; auto|]. repeat (split; [auto; fail|]).
      split. { cbn [s_step]. rewrite Eb. rewrite <- C1, <- C5, <- C6, Ei, Nat.eqb_refl, <- C3. cbn [andb].
               destruct (k_bfe k), (k_fe k); try discriminate; reflexivity. }
      unfold core_st. cbn. auto. }
    assert (Hif : forall ty, is_if ty = true -> w = keyword ty ->
       (k', p') = (k_set_ifs k (k_ifs k + 1) false, PIfStart ty) ->
       inv_at ((items_text l ++ opened ld (w0 ++ w)) ++ [c]) k' p').
    { intros ty Hty Hw' Heq. subst w. injection Heq as -> ->. destruct (Hop ty eq_refl) as (w1 & s1 & Hx & Hw1 & Hs1).
      exists l, (opened ld (w0 ++ keyword ty) ++ [c]), ty, ld, false, ast, cl, s', (Sst (s_ifs s' + 1) (s_blk s') false (s_fe s')).
      split; [rewrite <- app_assoc; reflexivity|]. split; [auto|]. split; [discriminate|].
      split; [exists w1, s1; auto 9|]. repeat (split; [auto; fail|]).
      split; [destruct ty; try discriminate; reflexivity|].
      unfold core_st. cbn. rewrite C1. destruct (s_blk s') as [[b f]|]; auto. }
    destruct (beq_spec w (B "ifdef")) as [Ew|_]; [apply (Hif TIfdef); auto; unfold ago in Hgo; congruence|].
    destruct (beq_spec w (B "ifndef")) as [Ew|_]; [apply (Hif TIfndef); auto; unfold ago in Hgo; congruence|].
    destruct (beq_spec w (B "if")) as [Ew|_]; [apply (Hif TIf); auto; unfold ago in Hgo; congruence|].
    destruct (beq_spec w (B "else")) as [Ew|_].
    { destruct (s_open_if s') eqn:Eo; [|discriminate]. destruct (k_else k) eqn:Eke; [discriminate|]. igo Hgo.
      exists l, (opened ld (w0 ++ B "else") ++ [c]), TElse, ld, false, ast, cl, s', (Sst (s_ifs s') (s_blk s') true (s_fe s')).
      split; [rewrite <- app_assoc; reflexivity|]. split; [auto|]. split; [discriminate|].
      split; [apply Hcl; simpl; auto|]. repeat (split; [auto; fail|]).
      split; [cbn [s_step]; rewrite Eo, <- C2; reflexivity|].
      unfold core_st. cbn. destruct (s_blk s') as [[b f]|]; auto. }
    destruct (beq_spec w (B "endif")) as [Ew|_].
    { destruct (s_open_if s') eqn:Eo; [|discriminate]. igo Hgo.
      exists l, (opened ld (w0 ++ B "endif") ++ [c]), TEndif, ld, false, ast, cl, s', (Sst (s_ifs s' - 1) (s_blk s') false (s_fe s')).
      split; [rewrite <- app_assoc; reflexivity|]. split; [auto|]. split; [discriminate|].
      split; [apply Hcl; simpl; auto|]. repeat (split; [auto; fail|]).
      split; [cbn [s_step]; rewrite Eo; reflexivity|].
      unfold core_st. cbn. rewrite C1. destruct (s_blk s') as [[b f]|]; auto. }
    destruct (beq_spec w (B "foreach")) as [Ew|_].
    { destruct (k_fe k) eqn:Ef; [discriminate|]. igo Hgo.
      destruct (Hop TForeach eq_refl) as (w1 & s1 & Hx & Hw1 & Hs1).
      exists l, (opened ld (w0 ++ B "foreach") ++ [c]), TForeach, ld, false, ast, cl, s', (Sst (s_ifs s') (s_blk s') (s_else s') true).
      split; [rewrite <- app_assoc; reflexivity|]. split; [auto|]. split; [discriminate|].
      split; [exists w1, s1; auto|]. repeat (split; [auto; fail|]).
      split; [cbn [s_step]; rewrite <- C3; reflexivity|].
      unfold core_st. cbn. destruct (s_blk s') as [[b f]|]; auto. }
    destruct (beq_spec w (B "endforeach")) as [Ew|_]; [|discriminate].
    destruct ((k_block k && negb (k_bfe k) && k_fe k) || (negb (k_block k) && k_fe k)) eqn:Eb; [|discriminate]. igo Hgo.
    exists l, (opened ld (w0 ++ B "endforeach") ++ [c]), TEndforeach, ld, false, ast, cl, s', (Sst (s_ifs s') (s_blk s') (s_else s') false).
    split; [rewrite <- app_assoc; reflexivity|]. split; [auto|]. split; [discriminate|].
    split; [apply Hcl; simpl; auto|]. repeat (split; [auto; fail|]).
    split.
    { cbn [s_step]. rewrite <- C3. destruct (s_blk s') as [[b f]|].
      - destruct C4 as (C4 & C5 & C6). rewrite C4, C6 in Eb. destruct f, (k_fe k); try discriminate; reflexivity.
      - rewrite C4 in Eb. destruct (k_fe k); try discriminate; reflexivity. }
    unfold core_st. cbn. destruct (s_blk s') as [[b f]|]; auto.
  - (* PBBStart *)
    destruct Hpart as (w & sp & -> & Hw & Hsp & -> & ->).
    destruct (isspace c) eqn:Es; [|destruct (is_lower c); [|discriminate]]; igo Hgo.
    + exists l, (opened ld (w ++ keyword TBlock ++ sp ++ [c])), TContent, ld, false, ast, cl, s, s'.
      split; [unfold opened; fin|]. split; [auto|]. split; [discriminate|].
      split; [exists w, (sp ++ [c]); repeat (split; [auto; fail|]); split; [apply blanks1_snoc; [apply Hsp|auto]|auto]|]. auto 14.
    + exists l, (opened ld (w ++ keyword TBlock ++ sp ++ [c])), TContent, ld, false, ast, cl, s, s'.
      split; [unfold opened; fin|]. split; [auto|]. split; [discriminate|].
      split; [exists w, sp; auto 9|]. auto 14.
  - (* PBB *)
    destruct Hpart as (w1 & sp & -> & Hw & Hsp & -> & ->).
    destruct (is_lower c || (c == "_"%char)).
    { igo Hgo. exists l, (opened ld (w1 ++ keyword TBlock ++ sp ++ w ++ [c])), TContent, ld, false, ast, cl, s, s'.
      split; [unfold opened; fin|]. split; [auto|]. split; [discriminate|].
      split; [exists w1, sp; auto 9|]. auto 14. }
    destruct (isspace c) eqn:Es; [|discriminate]. destruct (block_name w) eqn:Eb; [|discriminate]. igo Hgo.
    destruct Hcore as ((C1 & C2 & C3 & C4) & C7 & C5 & C6). injection Hstep as ->.
    exists l, (opened ld (w1 ++ keyword TBlock ++ sp ++ w ++ [c])), TBlock, ld, false, ast, cl, s',
      (Sst (s_ifs s') (Some (s_ifs s', s_fe s')) (s_else s') (s_fe s')).
    split; [unfold opened; fin|]. split; [auto|]. split; [discriminate|].
    split.
    { exists (w1 ++ keyword TBlock ++ sp ++ w ++ [c]). split; [reflexivity|]. split; [|auto].
      apply BBlock; auto using blanks1_one. unfold block_name in Eb. unfold block_names.
      rewrite !orb_true_iff, !beq_eq in Eb. simpl. intuition. }
    repeat (split; [auto; fail|]).
    split.
    { cbn [s_step]. rewrite C7. reflexivity. }
    unfold core_st. cbn. rewrite <- C1, <- C3. auto 14.
  - (* PIfStart *)
    destruct Hpart as (w & sp & -> & Hw & Hsp & <- & Hty & ->).
    destruct (isspace c) eqn:Es; [|destruct (is_upper c) eqn:Eu; [|discriminate]]; igo Hgo.
    + exists l, (opened ld (w ++ keyword ty ++ sp ++ [c])), ty, ld, false, ast, cl, s, s'.
      split; [unfold opened; fin|]. split; [auto|]. split; [discriminate|].
      split; [exists w, (sp ++ [c]); repeat (split; [auto; fail|]); split; [apply blanks1_snoc; [apply Hsp|auto]|auto]|]. auto 14.
    + exists l, (opened ld (w ++ keyword ty ++ sp ++ [c])), ty, ld, false, ast, cl, s, s'.
      split; [unfold opened; fin|]. split; [auto|]. split; [discriminate|].
      split; [exists w, sp; auto 9 using name_one|]. auto 14.
  - (* PIfVar *)
    destruct Hpart as (w & sp & -> & Hw & Hsp & Hv & <- & Hty & ->).
    destruct (var_char c) eqn:Ev.
    { igo Hgo. exists l, (opened ld (w ++ keyword ty ++ sp ++ v ++ [c])), ty, ld, false, ast, cl, s, s'.
      split; [unfold opened; fin|]. split; [auto|]. split; [discriminate|].
      split; [exists w, sp; auto 9 using name_snoc|]. auto 14. }
    destruct (isspace c) eqn:Es; [|discriminate]. igo Hgo.
    exists l, (opened ld (w ++ keyword ty ++ sp ++ v ++ [c])), ty, ld, false, ast, cl, s, s'.
    split; [unfold opened; fin|]. split; [auto|]. split; [destruct ty; discriminate|].
    split; [|destruct ty; auto 9].
    destruct ty; try discriminate.
    + exists (w ++ keyword TIfdef ++ sp ++ v ++ [c]). repeat split; auto. apply BNamed; auto using blanks1_one. simpl; auto.
    + exists (w ++ keyword TIfndef ++ sp ++ v ++ [c]). repeat split; auto. apply BNamed; auto using blanks1_one. simpl; auto.
    + exists w, sp, [c]. auto 9 using blanks1_one.
  - (* POpStart *)
    destruct Hpart as (w & sp & s2 & -> & Hw & Hsp & Hv & Hs2 & -> & ->).
    exists l, (opened ld (w ++ keyword TIf ++ sp ++ v ++ s2 ++ [c])), TIf, ld, false, ast, cl, s, s'.
    split; [unfold opened; fin|]. split; [auto|].
    destruct (isspace c) eqn:Es; igo Hgo.
    + split; [discriminate|]. split; [|auto 9].
      exists w, sp, (s2 ++ [c]). repeat (split; [auto; fail|]). split; [apply blanks1_snoc; [apply Hs2|auto]|auto].
    + split; [discriminate|]. split; [|auto 9]. exists w, sp, s2. repeat (split; [auto; fail|]).
      split; [discriminate|]. cbn. rewrite Es. auto.
  - (* POp *)
    destruct Hpart as (w & sp & s2 & -> & Hw & Hsp & Hv & Hs2 & Hne & Ho & -> & ->).
    exists l, (opened ld (w ++ keyword TIf ++ sp ++ v ++ s2 ++ o ++ [c])), TIf, ld, false, ast, cl, s, s'.
    split; [unfold opened; fin|]. split; [auto|].
    destruct (isspace c) eqn:Es; igo Hgo.
    + split; [discriminate|]. split; [|auto 9]. exists w, sp, s2, [c]. auto 12 using blanks1_one.
    + split; [discriminate|]. split; [|auto 9]. exists w, sp, s2. repeat (split; [auto; fail|]).
      split; [apply snoc_neq|]. rewrite forallb_app, Ho. cbn. rewrite Es. auto.
  - (* POperandStart *)
    destruct Hpart as (w & sp & s2 & s3 & -> & Hw & Hsp & Hv & Hs2 & Hne & Ho & Hs3 & -> & ->).
    exists l, (opened ld (w ++ keyword TIf ++ sp ++ v ++ s2 ++ o ++ s3 ++ [c])), TIf, ld, false, ast, cl, s, s'.
    split; [unfold opened; fin|]. split; [auto|].
    destruct (isspace c) eqn:Es; [|destruct (is_upper c) eqn:Eu; [|destruct (c == DQ) eqn:Eq; [|discriminate]]]; igo Hgo.
    + split; [discriminate|]. split; [|auto 9].
      exists w, sp, s2, (s3 ++ [c]). repeat (split; [auto; fail|]). split; [apply blanks1_snoc; [apply Hs3|auto]|auto].
    + split; [discriminate|]. split; [|auto 9]. exists w, sp, s2, s3. auto 12 using name_one.
    + apply eqb_true in Eq. subst c. split; [discriminate|]. split; [|auto 9]. exists w, sp, s2, s3, []. auto 13.
  - (* PStr *)
    destruct Hpart as (w & sp & s2 & s3 & b & -> & Hw & Hsp & Hv & Hs2 & Hne & Ho & Hs3 & -> & Hb & -> & ->).
    exists l, (opened ld (w ++ keyword TIf ++ sp ++ v ++ s2 ++ o ++ s3 ++ DQ :: b ++ [c])), TIf, ld, false, ast, cl, s, s'.
    split; [unfold opened; fin|]. split; [auto|].
    assert (Hcont : (if c == DQ then last (DQ :: b) NUL == BSL else true) = true ->
      exists w0 s0 s4 s5 b0, opened ld (w ++ keyword TIf ++ sp ++ v ++ s2 ++ o ++ s3 ++ DQ :: b ++ [c]) =
        opened ld (w0 ++ keyword TIf ++ s0 ++ v ++ s4 ++ o ++ s5 ++ DQ :: b0) /\
        blanks w0 /\ blanks1 s0 /\ name_ok v /\ blanks1 s4 /\ o <> [] /\
        forallb (fun c => negb (isspace c)) o = true /\ blanks1 s5 /\ (DQ :: b) ++ [c] = DQ :: b0 /\
        quoted_part DQ b0 = true /\ TIf = TIf /\ false = false).
    { intro Hc. exists w, sp, s2, s3, (b ++ [c]). repeat (split; [auto; fail|]).
      split; [apply quoted_part_snoc; auto|auto]. }
    destruct (c == DQ) eqn:Eq; cbn [negb] in Hgo; [destruct (last (DQ :: b) NUL == BSL) eqn:El|]; igo Hgo.
    + split; [discriminate|]. split; [|auto 9]. apply Hcont. reflexivity.
    + apply eqb_true in Eq. subst c. split; [discriminate|]. split; [|auto 9].
      exists (w ++ keyword TIf ++ sp ++ v ++ s2 ++ o ++ s3 ++ DQ :: b ++ DQ :: []).
      split; [reflexivity|]. split; [|auto]. apply BIfString; auto using blanks_nil.
      apply quoted_part_close; assumption.
    + split; [discriminate|]. split; [|auto 9]. apply Hcont. reflexivity.
  - (* PVarOp *)
    destruct Hpart as (w & sp & s2 & s3 & -> & Hw & Hsp & Hv & Hs2 & Hne & Ho & Hs3 & Hq & -> & ->).
    exists l, (opened ld (w ++ keyword TIf ++ sp ++ v ++ s2 ++ o ++ s3 ++ q ++ [c])), TIf, ld, false, ast, cl, s, s'.
    split; [unfold opened; fin|]. split; [auto|].
    destruct (var_char c) eqn:Ev; igo Hgo.
    + split; [discriminate|]. split; [|auto 9]. exists w, sp, s2, s3. auto 13 using name_snoc.
    + split; [discriminate|]. split; [|auto 9].
      exists (w ++ keyword TIf ++ sp ++ v ++ s2 ++ o ++ s3 ++ q ++ c :: []).
      split; [reflexivity|]. split; [|auto]. apply BIfVar; auto using blanks_nil.
  - (* PForStart *)
    destruct Hpart as (w & sp & -> & Hw & Hsp & -> & ->).
    exists l, (opened ld (w ++ keyword TForeach ++ sp ++ [c])), TForeach, ld, false, ast, cl, s, s'.
    split; [unfold opened; fin|]. split; [auto|].
    destruct (isspace c) eqn:Es; [|destruct (is_upper c) eqn:Eu; [|discriminate]]; igo Hgo.
    + split; [discriminate|]. split; [|auto 9].
      exists w, (sp ++ [c]). repeat (split; [auto; fail|]). split; [apply blanks1_snoc; [apply Hsp|auto]|auto].
    + split; [discriminate|]. split; [|auto 9]. exists w, sp. auto 9 using name_one.
  - (* PForVar *)
    destruct Hpart as (w & sp & -> & Hw & Hsp & Hv & -> & ->).
    exists l, (opened ld (w ++ keyword TForeach ++ sp ++ v ++ [c])), TForeach, ld, false, ast, cl, s, s'.
    split; [unfold opened; fin|]. split; [auto|].
    destruct (var_char c) eqn:Ev; [|destruct (isspace c) eqn:Es; [|discriminate]]; igo Hgo.
    + split; [discriminate|]. split; [|auto 9]. exists w, sp. auto 9 using name_snoc.
    + split; [discriminate|]. split; [|auto 9].
      exists (w ++ keyword TForeach ++ sp ++ v ++ [c]). repeat split; auto. apply BNamed; auto using blanks1_one. simpl; auto.
  - (* PEndClean *)
    destruct Hpart as (b & -> & Hb & <- & ->).
    destruct (isspace c) eqn:Es.
    { igo Hgo. exists l, (opened ld (b ++ [c])), ty, ld, false, ast, cl, s, s'.
      split; [unfold opened; fin|]. split; [auto|]. split; [discriminate|].
      split; [exists (b ++ [c]); auto using body_snoc|]. auto 14. }
    destruct (c == "-"%char) eqn:Em.
    { igo Hgo. apply eqb_true in Em. subst c. exists l, (opened ld (b ++ dash true)), ty, ld, true, ast, cl, s, s'.
      split; [unfold opened; fin|]. split; [auto|]. split; [discriminate|].
      split; [exists b; auto|]. cbn. rewrite orb_true_r. auto 14. }
    unfold a_block_end in Hgo. destruct (c == "%"%char) eqn:Ep; [|rewrite Em in Hgo; discriminate]. igo Hgo.
    apply eqb_true in Ep. subst c. exists l, (opened ld (b ++ dash false ++ B "%")), ty, ld, false, ast, cl, s, s'.
    split; [unfold opened; fin|]. split; [auto|]. split; [discriminate|].
    split; [right; split; [reflexivity|]; exists b; auto|]. auto 14.
  - (* PEnd *)
    destruct Hpart as (b & -> & Hb & <- & ->).
    unfold a_block_end in Hgo. destruct (c == "%"%char) eqn:Ep; [|destruct (c == "-"%char); discriminate]. igo Hgo.
    apply eqb_true in Ep. subst c. exists l, (opened ld (b ++ dash true ++ B "%")), ty, ld, true, ast, cl, s, s'.
    split; [unfold opened; fin|]. split; [auto|]. split; [discriminate|].
    split; [right; split; [reflexivity|]; exists b; auto|]. auto 14.
  - (* PVarStart *)
    destruct Hpart as (s1 & -> & Hs1 & -> & -> & ->).
    exists l, (B "{{" ++ s1 ++ [c]), TContent, false, false, ast, cl, s, s'.
    split; [fin|]. split; [auto|].
    destruct (isspace c) eqn:Es; [|destruct (is_upper c) eqn:Eu; [|discriminate]]; igo Hgo.
    + split; [discriminate|]. split; [exists (s1 ++ [c]); auto 9 using blanks_snoc|auto 9].
    + split; [discriminate|]. split; [exists s1; auto 9 using name_one|auto 9].
  - (* PVar *)
    destruct Hpart as (s1 & -> & Hs1 & Hv & -> & -> & ->).
    exists l, (B "{{" ++ s1 ++ v ++ [c]), TContent, false, false, ast, cl, s, s'.
    split; [fin|]. split; [auto|].
    destruct (var_char c) eqn:Ev; [|destruct (isspace c) eqn:Es; [|destruct (c == "}"%char) eqn:Eb; [|discriminate]]]; igo Hgo.
    + split; [discriminate|]. split; [exists s1; auto 9 using name_snoc|auto 9].
    + split; [discriminate|]. split; [|auto 9]. exists s1, [c]. repeat (split; [auto; fail|]).
      split; [apply blanks1_one, Es|auto].
    + apply eqb_true in Eb. subst c. split; [discriminate|]. split; [|auto 9]. left.
      repeat (split; [auto; fail|]). exists v, s1, []. auto 9 using blanks_nil.
  - (* PVarEnd *)
    destruct Hpart as (s1 & s2 & -> & Hs1 & Hv & Hs2 & -> & -> & ->).
    exists l, (B "{{" ++ s1 ++ v ++ s2 ++ [c]), TContent, false, false, ast, cl, s, s'.
    split; [fin|]. split; [auto|].
    destruct (isspace c) eqn:Es; [|destruct (c == "}"%char) eqn:Eb; [|discriminate]]; igo Hgo.
    + split; [discriminate|]. split; [exists s1, (s2 ++ [c]); auto 9 using blanks_snoc|auto 9].
    + apply eqb_true in Eb. subst c. split; [discriminate|]. split; [|auto 9]. left.
      repeat (split; [auto; fail|]). exists v, s1, s2. auto 14.
  - (* PClose *)
    destruct (c == "}"%char) eqn:Eb; [|discriminate]. apply eqb_true in Eb. subst c.
    destruct Hpart as [(-> & -> & -> & -> & -> & -> & v & s1 & s2 & -> & -> & Hs1 & Hv & Hs2)|(<- & b & -> & Hb)].
    + (* a variable *)
      cbn [a_close] in Hgo. igo Hgo. injection Hstep as ->.
      exists (l ++ [IVar s1 v s2]), [], TContent, false, false, (ast ++ [item_node (IVar s1 v s2)]), cl, s', s'.
      rewrite items_text_snoc, push_items_snoc, Hpush, map_app, s_run_app, Hrun.
      split; [fin|]. split; [apply items_ok_snoc; cbn; auto; discriminate|].
      split; [intros _; rewrite no_text_last_snoc; reflexivity|].
      split; [cbn; auto 9|]. split; [reflexivity|].
      split; [cbn; rewrite Hast, name_no_nul by assumption; reflexivity|]. auto 14.
    + (* a statement *)
      assert (Hop : exists op, op_means o op /\
                (k', p') = (k_push (match ty with TBlock => k_set_bt k (option_map cstr d0) | _ => k end)
                   (Node ty op (option_map cstr d0) (option_map cstr d1)) (k_lstrip k), PText [])).
      { unfold a_close in Hgo. destruct o as [|y o].
        - exists ONone. split; [left; auto|]. igo Hgo. reflexivity.
        - destruct (op_of (y :: o)) as [op|] eqn:Eo; [|discriminate]. exists op.
          split; [apply op_of_means; [discriminate|assumption]|]. igo Hgo. reflexivity. }
      clear Hgo. destruct Hop as (op & Hmeans & Heq). injection Heq as -> ->.
      exists (l ++ [ITag ld ty op d0 o d1 b rd]), [], TContent, false, false,
        ((if ld then rstrip_last ast else ast) ++ [item_node (ITag ld ty op d0 o d1 b rd)]), (cl || rd), s', s'.
      rewrite items_text_snoc, push_items_snoc, Hpush, map_app, s_run_app, Hrun.
      split; [unfold opened; fin|]. split; [apply items_ok_snoc; cbn; auto; discriminate|].
      split; [intros _; rewrite no_text_last_snoc; reflexivity|].
      split; [cbn; auto 9|]. split; [reflexivity|].
      split. { cbn. destruct ty; cbn; rewrite Hast, (body_d0 Hb); reflexivity. }
      split; [cbn; rewrite orb_false_r; destruct ty; exact Hls|].
      split; [cbn [map s_run item_type]; rewrite Hstep; reflexivity|].
      split; [reflexivity|].
      unfold core_st in *. destruct ty; exact Hcore.
Qed.

Lemma run_inv q : forall done k p k' p', inv_at done k p -> a_run k p q = inl (k', p') ->
  (q = [] /\ k' = k /\ p' = p) \/
  exists q0 c k0 p0, q = q0 ++ [c] /\ inv_at (done ++ q0) k0 p0 /\ a_step k0 p0 c true = inl (k', p').
Proof.
  induction q as [|c q IH]; intros done k p k' p' Hi H.
  - left. cbn in H. inv H. auto.
  - right. cbn [a_run] in H. destruct (a_step k p c (nilb q)) as [[k1 p1]|m] eqn:E; [|discriminate].
    destruct q as [|d q].
    + cbn in H. inv H. exists [], c, k, p. rewrite app_nil_r. auto.
    + cbn [nilb] in E. pose proof (inv_step Hi E) as Hi1.
      destruct (IH _ _ _ _ _ Hi1 H) as [(E1 & _)|(q0 & c0 & k0 & p0 & E1 & E2 & E3)]; [discriminate|].
      exists (c :: q0), c0, k0, p0. rewrite <- app_assoc in E2. rewrite E1. auto.
Qed.

Lemma inv_init : inv_at [] k_init (PText []).
Proof.
  exists [], [], TContent, false, false, [], false, s_init, s_init. cbn.
  repeat split; auto.
Qed.

Lemma step_last k p c b : reading_text p = false \/ (exists t, p = POpen t) -> a_step k p c b = a_step k p c false.
Proof. intros [H|[t ->]]; [destruct p; try discriminate; reflexivity|reflexivity]. Qed.

(* the trailing text of a template and what becomes of it *)
Definition tail_kept (t : bytes) : Prop :=
  (text_ok t = true /\ ~ exists u x, t = u ++ ["{"%char; x]) \/ (exists u, t = u ++ B "{" /\ text_ok u = true).
Definition tail_lost (t : bytes) : Prop :=
  text_ok t = true /\ exists u x, t = u ++ ["{"%char; x].

(* an unfinished tag; closing statements lack only their end *)
Definition open_tag (x : bytes) (ld : bool) (ty : ntype) : Prop :=
  (exists y, x = opened ld y /\
     (In ty [TEndif; TEndforeach; TEndblock] -> exists d0 o d1 b z, y = b ++ z /\ body ty d0 o d1 b /\
        In z [[]; B "-"; B "%"; B "-%"]))
  \/ (ld = false /\ ty = TContent /\ exists y, x = B "{{" ++ y).

(* how the source ends after its complete items, and the resulting nodes; the
   type is the statement whose keyword was read but which was not finished *)
Inductive ends (l : list item) : bytes -> list tnode -> ntype -> Prop :=
| EndTag : ends l [] (fst (push_items l)) TContent
| EndText t : t <> [] -> tail_kept t -> no_text_last l = true ->
    ends l t (fst (push_items (l ++ [IText t]))) TContent
| EndLost t : tail_lost t -> no_text_last l = true -> ends l t (fst (push_items l)) TContent
| EndOpen x (ld : bool) ty : open_tag x ld ty ->
    ends l x (if ld then rstrip_last (fst (push_items l)) else fst (push_items l)) ty.

Lemma accept_final k p ast : a_finish k p = inl ast ->
  k_ifs k = 0 /\ k_block k = false /\ k_fe k = false /\ ast = k_ast k.
Proof.
  intro H.
  assert (H' : (if negb (Nat.eqb (k_ifs k) 0) then inr (MIfs (k_ifs k))
      else if k_block k then inr MBlockOpen
      else if k_fe k then inr MForeachOpen
      else inl (k_ast k)) = inl ast :> (list tnode + tmsg)) by (destruct p; try exact H; discriminate).
  destruct (Nat.eqb_spec (k_ifs k) 0); [|discriminate]. cbn in H'.
  destruct (k_block k); [discriminate|]. destruct (k_fe k); [discriminate|]. inv H'. auto.
Qed.

Lemma core_final k s : core_st k s -> k_ifs k = 0 -> k_block k = false -> k_fe k = false -> s_final s = true.
Proof.
  intros (C1 & C2 & C3 & C4) H1 H2 H3. unfold s_final. rewrite <- C1, H1, <- C3, H3. cbn.
  destruct (s_blk s) as [[b f]|]; [destruct C4; congruence|reflexivity].
Qed.

Lemma part_opened p x ty ld rd : part p x ty ld rd -> reading_text p = false -> open_tag x ld ty.
Proof.
  intros H Hr.
  assert (G : forall y, x = opened ld y -> ~ In ty [TEndif; TEndforeach; TEndblock] -> open_tag x ld ty)
    by (intros y Hy Hn; left; exists y; tauto).
  assert (N1 : ty = TContent -> ~ In ty [TEndif; TEndforeach; TEndblock]) by (intros ->; simpl; intuition discriminate).
  assert (N2 : is_if ty = true -> ~ In ty [TEndif; TEndforeach; TEndblock])
    by (destruct ty; simpl; intuition discriminate).
  assert (N3 : ty = TForeach -> ~ In ty [TEndif; TEndforeach; TEndblock]) by (intros ->; simpl; intuition discriminate).
  destruct p; try discriminate; cbn [part] in H.
  - destruct H as (-> & -> & -> & _). apply (G []); auto.
  - destruct H as (w & -> & _ & -> & _). eauto.
  - destruct H as (w0 & -> & _ & -> & _). eauto.
  - destruct H as (w & sp & -> & _ & _ & -> & _). eauto.
  - destruct H as (w0 & sp & -> & _ & _ & -> & _). eauto.
  - destruct H as (w & sp & -> & _ & _ & -> & Hi & _). eauto.
  - destruct H as (w & sp & -> & _ & _ & _ & -> & Hi & _). eauto.
  - destruct H as (w & sp & s2 & -> & _ & _ & _ & _ & -> & _). eauto.
  - destruct H as (w & sp & s2 & -> & _ & _ & _ & _ & _ & _ & -> & _). eauto.
  - destruct H as (w & sp & s2 & s3 & -> & _ & _ & _ & _ & _ & _ & _ & -> & _). eauto.
  - destruct H as (w & sp & s2 & s3 & b & -> & _ & _ & _ & _ & _ & _ & _ & _ & _ & -> & _). eauto.
  - destruct H as (w & sp & s2 & s3 & -> & _ & _ & _ & _ & _ & _ & _ & _ & -> & _). eauto.
  - destruct H as (w & sp & -> & _ & _ & -> & _). eauto.
  - destruct H as (w & sp & -> & _ & _ & _ & -> & _). eauto.
  - destruct H as (b & -> & Hb & -> & _). left. eexists. split; [reflexivity|]. intros _.
    exists d0, o, d1, b, []. rewrite app_nil_r. simpl. auto.
  - destruct H as (b & -> & Hb & -> & ->). left. eexists. split; [reflexivity|]. intros _.
    exists d0, o, d1, b, (B "-"). simpl. auto 6.
  - destruct H as (s1 & -> & _ & -> & -> & _). right. eauto.
  - destruct H as (s1 & -> & _ & _ & -> & -> & _). right. eauto.
  - destruct H as (s1 & s2 & -> & _ & _ & _ & -> & -> & _). right. eauto.
  - destruct H as [(_ & -> & -> & _ & _ & _ & v & s1 & s2 & _ & -> & _)|(-> & b & -> & Hb)]; [right; eauto|].
    left. eexists. split; [reflexivity|]. intros _. exists d0, o, d1, b, (dash rd ++ B "%"). split; [reflexivity|].
    split; [assumption|]. destruct rd; simpl; auto 6.
Qed.

Lemma snoc_brace (t u : bytes) c x : t ++ [c] = u ++ ["{"%char; x] -> t = u ++ B "{" /\ c = x.
Proof.
  intro H. change ["{"%char; x] with (B "{" ++ [x]) in H. rewrite app_assoc in H.
  apply app_inj_tail in H. exact H.
Qed.

Lemma step_tag_text k p c b k' p' : reading_text p = false -> a_step k p c b = inl (k', p') ->
  reading_text p' = true -> p' = PText [].
Proof.
  intros Hp H Hr.
  assert (G : forall (r : ares) (k1 : acore) (p1 : phase), r = inl (k', p') -> r = ago k1 p1 ->
            reading_text p1 = false -> p' = PText []).
  { intros r k1 p1 E1 E2 E3. rewrite E2 in E1. unfold ago in E1. inv E1. congruence. }
  destruct p; try discriminate; cbn [a_step] in H;
    unfold a_block_start, a_block_end, a_keyword in H;
    repeat match type of H with
    | (if ?x then _ else _) = _ => destruct x
    end; try discriminate; try (eapply G; [exact H|reflexivity|first [reflexivity|destruct ty; reflexivity]]).
  unfold a_close in H. destruct o as [|y o]; [|destruct (op_of (y :: o)); [|discriminate]];
    unfold ago in H; inv H; reflexivity.
Qed.

(* Every accepted source is a document, possibly with an unfinished tag at its
   end, and the nodes are the document's. *)
Theorem accepted_is_doc src ast : a_parse src = inl ast ->
  exists l tail ty s s',
    src = items_text l ++ tail /\ items_ok l /\ ends l tail ast ty /\
    s_run s_init (map item_type l) = Some s /\ s_step s ty = Some s' /\ s_final s' = true.
Proof.
  unfold a_parse. destruct (a_run k_init (PText []) src) as [[k p]|m] eqn:E; [|discriminate].
  intro Hf. destruct (accept_final Hf) as (F1 & F2 & F3 & F4).
  destruct (run_inv inv_init E) as [(-> & -> & ->)|(q0 & c & k0 & p0 & -> & Hi & Hs)].
  { exists [], [], TContent, s_init, s_init. subst ast. repeat split; auto. constructor. }
  cbn [app] in Hi.
  assert (Hc : (exists t, p0 = PText t) \/ (exists t, p0 = POpen t) \/ reading_text p0 = false)
    by (destruct p0; eauto).
  destruct Hc as [(t & ->)|[(t & ->)|Hr]].
  - (* the last byte is read as text *)
    destruct Hi as (l & x & ty & ld & rd & ast0 & cl & s & s' & Hd & Hok & Hnt & Hpart & Hpush & Hast & Hls & Hrun & Hstep & Hcore).
    cbn [part] in Hpart. destruct Hpart as (-> & Htok & -> & -> & ->). specialize (Hnt eq_refl).
    cbn [a_step] in Hs.
    exists l, (t ++ [c]), TContent, s, s'.
    assert (Hk : k = k_text k0 (t ++ [c]) /\ tail_kept (t ++ [c])).
    { unfold tail_kept. destruct (c == "{"%char) eqn:Ec.
      - apply eqb_true in Ec. subst c. unfold ago in Hs. inv Hs. split; [reflexivity|]. right. exists t. auto.
      - unfold ago in Hs. inv Hs. split; [reflexivity|]. left. split; [apply text_ok_snoc; auto|].
        intros (u & y & Hu). apply snoc_brace in Hu. destruct Hu as [-> ->].
        clear -Htok. rewrite <- (rev_involutive u) in Htok. induction u as [|z u IH] using rev_ind; [discriminate|].
        rewrite rev_involutive in Htok.
        assert (Hgen : forall w, text_ok (w ++ B "{") = false).
        { induction w as [|a w IHw]; [reflexivity|]. cbn [app text_ok]. rewrite IHw. apply andb_false_r. }
        rewrite Hgen in Htok. discriminate. }
    destruct Hk as [-> Hkept].
    split; [rewrite Hd, <- app_assoc; reflexivity|]. split; [auto|].
    split.
    { replace ast with (fst (push_items (l ++ [IText (t ++ [c])]))); [apply EndText; auto using snoc_neq|].
      rewrite push_items_snoc, Hpush, F4. cbn. rewrite Hast. rewrite orb_false_r in Hls. rewrite Hls. reflexivity. }
    split; [auto|]. split; [auto|].
    apply (core_final (core_text_st (t ++ [c]) Hcore)); assumption.
  - (* a brace, then the last byte *)
    rewrite step_last in Hs by (right; eauto). pose proof (inv_step Hi Hs) as Hj.
    destruct Hi as (l & x & ty & ld & rd & ast0 & cl & s & s' & Hd & Hok & Hnt & Hpart & Hpush & Hast & Hls & Hrun & Hstep & Hcore).
    cbn [part] in Hpart. destruct Hpart as (-> & Htok & -> & -> & ->). specialize (Hnt eq_refl).
    cbn [a_step] in Hs. destruct ((c == "%"%char) || (c == "{"%char)) eqn:Ec.
    + destruct Hj as (l1 & x1 & ty1 & ld1 & rd1 & ast1 & cl1 & s1 & s1' & Hd1 & Hok1 & Hnt1 & Hpart1 & Hpush1 & Hast1 & Hls1 & Hrun1 & Hstep1 & Hcore1).
      unfold ago in Hs. injection Hs as <- <-.
      assert (Hrt : reading_text (if c == "%"%char then PClean else PVarStart) = false) by (destruct (c == "%"%char); reflexivity).
      exists l1, x1, ty1, s1, s1'. split; [auto|]. split; [auto|].
      split. { rewrite F4, Hast1. replace ast1 with (fst (push_items l1)) by (rewrite Hpush1; reflexivity).
               apply EndOpen. apply (part_opened Hpart1 Hrt). }
      split; [auto|]. split; [auto|].
      assert (Hc1 : core_st (match t with [] => k0 | _ => k_text k0 t end) s1') by (destruct (c == "%"%char); exact Hcore1).
      apply (core_final Hc1); assumption.
    + unfold ago in Hs. injection Hs as <- <-.
      exists l, (t ++ ["{"%char; c]), TContent, s, s'.
      split; [rewrite Hd, <- app_assoc, <- app_assoc; reflexivity|]. split; [auto|].
      split. { rewrite F4, Hast. replace ast0 with (fst (push_items l)) by (rewrite Hpush; reflexivity).
               apply EndLost; auto. split; [apply text_ok_brace; auto|eauto]. }
      split; [auto|]. split; [auto|]. apply (core_final Hcore); assumption.
  - (* inside a tag *)
    rewrite step_last in Hs by (left; assumption). pose proof (inv_step Hi Hs) as Hj.
    pose proof (step_tag_text Hr Hs) as Hpt.
    destruct Hj as (l1 & x1 & ty1 & ld1 & rd1 & ast1 & cl1 & s1 & s1' & Hd1 & Hok1 & Hnt1 & Hpart1 & Hpush1 & Hast1 & Hls1 & Hrun1 & Hstep1 & Hcore1).
    exists l1, x1, ty1, s1, s1'. split; [auto|]. split; [auto|].
    assert (Hc1 : core_st k s1') by (destruct p; try exact Hcore1; apply Hcore1).
    split; [|split; [auto|]; split; [auto|]; apply (core_final Hc1); assumption].
    rewrite F4, Hast1. replace ast1 with (fst (push_items l1)) by (rewrite Hpush1; reflexivity).
    destruct (reading_text p) eqn:Ert.
    + rewrite (Hpt eq_refl) in Hpart1. cbn [part] in Hpart1. destruct Hpart1 as (-> & _ & -> & -> & _). apply EndTag.
    + apply EndOpen. apply (part_opened Hpart1 Ert).
Qed.
