(* The block parser gives a result for texts with lists whose lines all belong to an item. *)
From Verif Require Import Base Utils UtilsProofs Toctree Content InlineSpec InlineProofs BlockSpec BlockProofs BlockTerm BlockSafe
  DocSpec ListSpec BlockFwd BlockDoc.
#[local] Arguments B : simpl never.

(* a text that does not end with a backslash *)
Definition nbt (x : bytes) : Prop := forall r, x <> r ++ [BSL].
Lemma nbt_nil : nbt [].
Proof. intros r E. destruct r; discriminate. Qed.
Lemma nbt_app x y : nbt y -> y <> [] -> nbt (x ++ y).
Proof.
  intros H Hy r E. destruct (list_last_inv y) as [->|(q & c & ->)]; [contradiction|].
  rewrite app_assoc in E. apply app_inj_tail in E. destruct E as [_ ->]. exact (H q eq_refl).
Qed.
Lemma nbt_skipn x n : nbt x -> nbt (skipn n x).
Proof. intros H r E. apply (H (firstn n x ++ r)). rewrite <- app_assoc, <- E. symmetry. apply firstn_skipn. Qed.
Lemma nbt_nl e : Forall newline_byte e -> nbt e.
Proof. intros H r ->. apply Forall_app in H. destruct H as [_ H]. inversion H as [|? ? K]. destruct K; discriminate. Qed.
Lemma nbt_join e l : Forall newline_byte e -> e <> [] -> Forall nbt l -> nbt (join_lines e l).
Proof.
  intros He Hne H. induction H as [|x l Hx Hl IH]; [exact nbt_nil|]. cbn [join_lines]. destruct l as [|y l]; [exact Hx|].
  set (J := join_lines e (y :: l)) in *. destruct (list_last_inv J) as [->|(q & c & Eq)].
  - rewrite app_nil_r. apply nbt_app; [apply nbt_nl, He|exact Hne].
  - rewrite app_assoc. apply nbt_app; [exact IH|]. rewrite Eq. destruct q; discriminate.
Qed.
Lemma nbt_inline t : no_nul t -> nbt t -> exists h, inline t = Ok h.
Proof.
  intros Hn Ht. pose proof (inline_ok Hn) as K. destruct (inline t) as [h| |]; [eauto| |destruct K]. exfalso. apply K. apply even_wsafe.
  destruct (list_last_inv t) as [->|(r & c & ->)]; [reflexivity|]. rewrite odd_tail_snoc.
  destruct (c == BSL) eqn:Ec; [|reflexivity]. apply eqb_true in Ec. subst c. destruct (Ht r eq_refl).
Qed.
Lemma nbt_dup s a p : no_trailing_backslash s -> good s p -> a <= length s -> nbt (dup s a p).
Proof.
  intros H Hg La r E. destruct (dup_piece Hg La) as [K|(x & y & Es & Hy & _)]; [rewrite K in E; destruct r; discriminate|].
  destruct (H (x ++ r) y) as (c & r' & -> & Hc); [rewrite Es, E, <- !app_assoc; reflexivity|].
  destruct Hy as [?|(c' & r2 & Ey & Hc')]; [discriminate|]. injection Ey as <- _. contradiction.
Qed.

(* ---------- the items of a list ---------- *)
Definition lmark (k : bool) (p y : bytes) : Prop := if k then number_mark p y else bullet_mark p y.
Definition nonl (l : bytes) : Prop := Forall (fun c => ~ newline_byte c) l.
Definition inlist (k : bool) (s : bytes) (b : bvars) (upto : nat) : Prop :=
  exists p, (if k then b_plen b = length p else b_prefix b = Some p) /\ lmark k p (skipn (b_start b) s) /\
    lstart s (b_start b) /\ b_start b <= upto /\ lines_on (sub s (b_start b) upto).
Definition blanks (l : bytes) : Prop := Forall blank l.

(* quotes, in texts with one newline byte *)
Definition inquote (s : bytes) (b : bvars) (p w : bytes) : Prop :=
  p = ">"%char :: w /\ blanks w /\ lstart s (b_start b) /\ nth_error s (b_start b) = Some ">"%char.
Definition inline_quote (s : bytes) (b : bvars) (p : bytes) (cur : nat) : Prop :=
  (b_lines b = [] /\ b_start2 b = b_start b /\ b_start b < cur /\ exists n l c r, sub s (b_start b) cur = p ++ n ++ l /\ n ++ l = c :: r /\ ~ blank c /\
     (n = [] \/ exists d, n = [d] /\ newline_byte d) /\ nonl l) \/
  (exists u d, quoted p (b_lines b) u /\ b_start b <= b_start2 b /\ sub s (b_start b) (b_start2 b) = u ++ [d] /\ newline_byte d /\
     b_start2 b < cur /\ nonl (sub s (b_start2 b) cur)).
Definition LQ (a : ascii) (upto : bytes) (b : bvars) : Prop :=
  b_real b = 0 /\ (b_lef b = true -> b_le b = [a]) /\
  (b_lef b = false -> b_le b = [LF] /\ forall c, In c upto -> is_nl c = false).

Definition kstate (s : bytes) (cur : nat) (b : bvars) : Prop :=
  let len := length s in
  match b_state b with
  | BStart => b_lines b = [] /\ b_lines2 b = L2 [] /\ (lstart s cur \/ len <= cur)
  | BListOrRule => b_lines b = [] /\ b_lines2 b = L2 [] /\ b_start2 b = b_start b /\ lstart s (b_start b) /\
      b_start b < cur /\ nth_error s (b_start b) = Some (b_d b) /\ In (b_d b) (B "*+-") /\ blanks (sub s (b_start b + 1) cur) /\
      (b_d b = "*"%char -> b_start b + 1 < cur -> exists c, nth_error s (b_start b + 1) = Some c /\ blank c)
  | BOl => b_lines b = [] /\ b_lines2 b = L2 [] /\ b_start2 b = b_start b /\ lstart s (b_start b) /\ b_start b < cur /\
      Forall (fun c => is_digit c = true) (sub s (b_start b) cur)
  | BOlSpace => b_lines b = [] /\ b_lines2 b = L2 [] /\ b_start2 b = b_start b /\ lstart s (b_start b) /\ b_start b < cur /\
      numbered (sub s (b_start b) cur)
  | BUlStart => inlist false s b (b_start2 b) /\ b_start2 b < cur /\ nonl (sub s (b_start2 b) cur)
  | BUlEnd => inlist false s b cur \/ len <= cur
  | BOlStart => inlist true s b (b_start2 b) /\ b_start2 b < cur /\ nonl (sub s (b_start2 b) cur)
  | BOlEnd => inlist true s b cur \/ len <= cur
  | BQuote => b_lines b = [] /\ b_lines2 b = L2 [] /\ b_start2 b = b_start b /\ lstart s (b_start b) /\ b_start b < cur /\
      nth_error s (b_start b) = Some ">"%char /\ blanks (sub s (b_start b + 1) cur)
  | BQuoteStart => b_lines2 b = L2 [] /\ exists p w, b_prefix b = Some p /\ inquote s b p w /\ inline_quote s b p cur
  | BQuoteEnd => b_lines2 b = L2 [] /\ exists p w, b_prefix b = Some p /\ inquote s b p w /\
      (len <= cur \/ exists u d, quoted p (b_lines b) u /\ sub s (b_start b) cur = u ++ [d] /\ newline_byte d)
  | BCodeStart | BCodeEnd => b_prefix b <> None /\ b_lines2 b = L2 []
  | _ => b_lines b = [] /\ b_lines2 b = L2 []
  end.
Definition K2 (s : bytes) (cur : nat) (b : bvars) : Prop :=
  good s (b_real b) /\ good s (b_end b) /\ Forall newline_byte (b_le b) /\ b_le b <> [] /\
  (exists l, b_lines2 b = L2 l /\ Forall (fun t => no_nul t /\ nbt t) l) /\ b_real b <= cur /\
  b_start b <= cur /\ b_start2 b <= cur /\ cur <= length s /\ kstate s cur b.

Lemma nth_firstn (l : bytes) : forall n i, i < n -> nth_error (firstn n l) i = nth_error l i.
Proof.
  induction l as [|x l IH]; intros [|n] [|i] H; try lia; try reflexivity. cbn. apply IH. lia.
Qed.
Lemma nth_skipn (l : bytes) : forall a i, nth_error (skipn a l) i = nth_error l (a + i).
Proof. induction l as [|x l IH]; intros [|a] i; try reflexivity; [destruct i; reflexivity|]. cbn. apply IH. Qed.

Section List.
Variables (s : bytes) (len : nat) (rec : bytes -> bytes -> res bytes) (o : bopts).
Hypothesis Hlen : len = length s.
Hypothesis Hnul : no_nul s.
Hypothesis Hbsl : no_trailing_backslash s.
Variable a0 : ascii.
Hypothesis Hq : no_quote_lines s \/
  (only_nl a0 s /\ newline_of s a0 /\ forall w u z x p v ls, s = w ++ u ++ z -> line_break w ->
     (z = [] \/ exists c r, z = c :: r /\ newline_byte c) -> p = ">"%char :: v -> Forall blank v -> quoted p ls u -> newline_of s x ->
     exists r, rec (lines_text [x] ls) [x] = Ok r).
Hypothesis Hei : no_empty_items s.
Hypothesis Hkept : lists_kept s.

Definition outK (r : res (nat * bvars)) : Prop :=
  match r with Ok (cur', b') => K2 s cur' b' | _ => False end.

Lemma nonl_at l n c : nonl l -> nth_error l n = Some c -> ~ newline_byte c.
Proof. intros H E. apply nth_error_In in E. unfold nonl in H. rewrite Forall_forall in H. exact (H c E). Qed.
Lemma nth_sub i a b : a + i < b -> nth_error (sub s a b) i = nth_error s (a + i).
Proof.
  intro H. unfold sub. rewrite nth_firstn by lia. apply nth_skipn.
Qed.
Lemma sub_skipn a b : a <= b -> skipn a s = sub s a b ++ skipn b s.
Proof.
  intro H. unfold sub. rewrite <- (firstn_skipn (b - a) (skipn a s)) at 1. f_equal. rewrite skipn_add. f_equal. lia.
Qed.

(* what is taken of a line *)
Definition line_text (a e : nat) (t : bytes) : Prop := t = skipn a s \/ (t = sub s a e /\ a < e /\ exists c, nth_error s e = Some c /\ newline_byte c).
Lemma line_text_prefix a e t p z : line_text a e t -> skipn a s = p ++ z -> nonl p -> exists z', t = p ++ z'.
Proof.
  intros [->|(-> & L & c & Ec & Hc)] E Hp; [eauto|]. unfold sub. rewrite E.
  assert (length p <= e - a).
  { destruct (Nat.le_gt_cases (length p) (e - a)) as [|K]; [assumption|exfalso]. apply (@nonl_at p (e - a) c Hp); [|exact Hc].
    rewrite <- (firstn_skipn a s) in Ec. assert (Le : e < length s) by (apply nth_error_Some; rewrite <- (firstn_skipn a s), Ec; discriminate).
    rewrite nth_error_app2 in Ec by (rewrite firstn_length; lia). rewrite firstn_length, Nat.min_l in Ec by lia.
    rewrite E, nth_error_app1 in Ec by lia. exact Ec. }
  rewrite firstn_app. rewrite firstn_all2 by lia. eauto.
Qed.

Lemma item_text a e t (k : bool) p : line_text a e t -> (if k then numbered p else True) -> nonl p ->
  match k with
  | false => (exists z, skipn a s = p ++ z) \/ indented p (skipn a s)
  | true => (exists q d z, skipn a s = q ++ d :: z /\ numbered q /\ length q = length p /\ ~ newline_byte d) \/ indented p (skipn a s)
  end ->
  (if k then is_ordered_item t (length p) else starts_with t p) = true \/ starts_with t (spaces (length p)) = true.
Proof.
  intros Ht Hk Hp H.
  assert (I : indented p (skipn a s) -> starts_with t (spaces (length p)) = true).
  { intros (z & E). destruct (line_text_prefix Ht E) as (z' & ->).
    - apply Forall_forall. intros c Hc. apply repeat_spec in Hc. subst c. intros [X|X]; discriminate.
    - apply BlockFwd.starts_with_app. }
  destruct k.
  - destruct H as [(q & d & z & E & Hn & Hl & Hd)|H]; [left|right; exact (I H)].
    change (d :: z) with ([d] ++ z) in E. rewrite app_assoc in E. destruct (line_text_prefix Ht E) as (z' & ->).
    + apply Forall_app. split; [|constructor; [exact Hd|constructor]]. destruct Hn as (ds & w & -> & _ & Hds & Hw).
      apply Forall_app. split; [eapply Forall_impl; [|exact Hds]; intros c Hc [X|X]; subst c; discriminate|].
      constructor; [intros [X|X]; discriminate|]. eapply Forall_impl; [|exact Hw]. intros c [->| ->] [X|X]; discriminate.
    + rewrite <- Hl, <- app_assoc. apply ordered_item; [exact Hn|discriminate].
  - destruct H as [(z & E)|H]; [left|right; exact (I H)]. destruct (line_text_prefix Ht E Hp) as (z' & ->). apply BlockFwd.starts_with_app.
Qed.

(* a line of a list is part of an item *)
Lemma line_kept (k : bool) b a cur p : (if k then b_plen b = length p else b_prefix b = Some p) -> lmark k p (skipn (b_start b) s) ->
  lstart s (b_start b) -> b_start b <= a -> lines_on (sub s (b_start b) a) -> a < cur -> cur <= length s -> nonl (sub s a cur) ->
  match k with
  | false => (exists z, skipn a s = p ++ z) \/ indented p (skipn a s)
  | true => (exists q d z, skipn a s = q ++ d :: z /\ numbered q /\ length q = length p /\ ~ newline_byte d) \/ indented p (skipn a s)
  end.
Proof.
  intros Hk Hm Hs La Hu Lc Ll Hn. destruct (Nat.eq_dec a (b_start b)) as [->|Na].
  - destruct k; cbn [lmark] in Hm.
    + destruct Hm as (c & r & E & Hp & _ & Hc). left. exists p, c, r. auto.
    + destruct Hm as (d & w & c & r & _ & E & _). left. eauto.
  - destruct (nth_error s a) as [c|] eqn:Ec; [|apply nth_error_None in Ec; lia].
    assert (Hc : ~ newline_byte c).
    { apply (@nonl_at (sub s a cur) 0 c Hn). rewrite nth_sub by lia. rewrite Nat.add_0_r. exact Ec. }
    rewrite (skipn_at Ec).
    destruct (@Hkept (firstn (b_start b) s) (skipn (b_start b) s) (sub s (b_start b) a) c (skipn (a + 1) s)) as (K1 & K2); auto.
    + symmetry. apply firstn_skipn.
    + rewrite <- (skipn_at Ec). apply sub_skipn. exact La.
    + intro E. apply (f_equal (@length ascii)) in E. rewrite sub_length in E by lia. cbn in E. lia.
    + destruct k; [apply K2, Hm|apply K1, Hm].
Qed.
Lemma mark_nonl k p y : lmark k p y -> nonl p /\ (if k then numbered p else True).
Proof.
  destruct k; cbn [lmark].
  - intros (c & r & _ & Hn & _). split; [|exact Hn]. destruct Hn as (ds & w & -> & _ & Hds & Hw).
    apply Forall_app. split; [eapply Forall_impl; [|exact Hds]; intros a Ha [X|X]; subst a; discriminate|].
    constructor; [intros [X|X]; discriminate|]. eapply Forall_impl; [|exact Hw]. intros a [->| ->] [X|X]; discriminate.
  - intros (d & w & c & r & -> & _ & Hd & Hw & _). split; [|exact I]. constructor.
    + destruct Hd as [<-|[<-|[<-|[]]]]; intros [X|X]; discriminate.
    + eapply Forall_impl; [|exact Hw]. intros a [->| ->] [X|X]; discriminate.
Qed.

(* how an iteration comes to the byte at [cur] *)
Definition arrived (cur0 cur : nat) (c : ascii) (b : bvars) : Prop :=
  (cur = cur0 /\ b_real b <= cur0) \/
  (cur = cur0 + 1 /\ is_nl c = true /\ b_real b = cur0 /\ exists n, nth_error s cur0 = Some n /\ is_nl n = true /\ n <> c).
Lemma list_text cur0 cur c b : cur < len -> nth_error s cur = Some c -> arrived cur0 cur c b -> good s (b_real b) ->
  is_nl c || Nat.eqb cur (len - 1) = true -> b_start2 b < cur0 -> nonl (sub s (b_start2 b) cur0) ->
  line_text (b_start2 b) cur0 (dup s (b_start2 b) (line_end len cur c b)).
Proof.
  intros L Ec Har Hg Eol L2 Hn. unfold line_end. destruct (Nat.eqb cur (len - 1) && negb (is_nl c)) eqn:E1.
  - left. unfold dup. destruct (Nat.leb (b_start2 b) len); [|reflexivity]. apply firstn_all2. rewrite skipn_length. lia.
  - assert (En : is_nl c = true) by (destruct (is_nl c); [reflexivity|]; cbn in Eol; rewrite Eol in E1; discriminate).
    assert (R : forall n, nth_error s cur0 = Some n -> is_nl n = true -> line_text (b_start2 b) cur0 (dup s (b_start2 b) cur0)).
    { intros n E E'. right. rewrite dup_sub by lia. split; [reflexivity|]. split; [exact L2|]. exists n. split; [exact E|apply is_nl_iff, E']. }
    destruct Har as [(-> & Hr)|(-> & _ & Hr & n & E3 & E4 & _)].
    + destruct (Nat.eqb (b_real b) 0) eqn:Ez; [exact (R c Ec En)|]. apply Nat.eqb_neq in Ez.
      destruct Hg as [?|[?|(d & Ed & Hd)]]; [lia|lia|].
      destruct (Nat.lt_ge_cases (b_real b) (b_start2 b)) as [K|K].
      { left. unfold dup. apply Nat.leb_gt in K. rewrite K. reflexivity. }
      destruct (Nat.eq_dec (b_real b) cur0) as [->|Nr]; [exact (R c Ec En)|exfalso].
      apply (@nonl_at (sub s (b_start2 b) cur0) (b_real b - b_start2 b) d Hn); [|exact Hd].
      rewrite nth_sub by lia. replace (b_start2 b + (b_real b - b_start2 b)) with (b_real b) by lia. exact Ed.
    + rewrite Hr. replace (Nat.eqb cur0 0) with false by (symmetry; apply Nat.eqb_neq; lia). exact (R n E3 E4).
Qed.
Lemma arrived_lines cur0 cur c b a : cur < len -> nth_error s cur = Some c -> arrived cur0 cur c b -> is_nl c = true ->
  b_start b <= a -> a < cur0 -> nonl (sub s a cur0) -> lines_on (sub s (b_start b) a) -> lines_on (sub s (b_start b) (cur + 1)).
Proof.
  intros L Ec Har En La L2 Hn Hu.
  assert (T : exists e, ending e /\ sub s cur0 (cur + 1) = e).
  { apply is_nl_iff in En. destruct Har as [(-> & _)|(-> & _ & _ & n & E3 & E4 & Hne)].
    - exists [c]. split; [destruct En as [-> | ->]; [left|right; left]; reflexivity|].
      rewrite (sub_snoc (le_n _) Ec). unfold sub. rewrite Nat.sub_diag. reflexivity.
    - apply is_nl_iff in E4. exists [n; c]. split.
      + destruct En as [-> | ->], E4 as [-> | ->]; try contradiction; [right; right; left|right; right; right; left]; reflexivity.
      + rewrite (sub_snoc (Nat.le_add_r _ _) Ec), (sub_snoc (le_n _) E3). unfold sub. rewrite Nat.sub_diag. reflexivity. }
  assert (Hc0 : cur0 <= cur) by (destruct Har as [(-> & _)|(-> & _)]; lia).
  destruct T as (e & He & Ee).
  rewrite (@sub_split s (b_start b) (cur + 1) a) by lia. rewrite (@sub_split s a (cur + 1) cur0) by lia. rewrite Ee.
  apply LO_line; [exact Hu| |exact Hn|exact He]. intro E. apply (f_equal (@length ascii)) in E. rewrite sub_length in E by lia. cbn in E. lia.
Qed.

Lemma good_end' cur c b : cur < len -> nth_error s cur = Some c -> is_nl c || Nat.eqb cur (len - 1) = true ->
  good s (b_real b) -> good s (line_end len cur c b).
Proof.
  intros L Ec Eol Hr. unfold line_end. destruct (Nat.eqb cur (len - 1)) eqn:El; cbn [andb].
  - destruct (is_nl c) eqn:En; cbn [negb].
    + destruct (Nat.eqb (b_real b) 0); [|exact Hr]. right. right. exists c. split; [exact Ec|]. apply is_nl_iff, En.
    + right. left. lia.
  - rewrite orb_false_r in Eol. destruct (Nat.eqb (b_real b) 0); [|exact Hr].
    right. right. exists c. split; [exact Ec|]. apply is_nl_iff, Eol.
Qed.
Lemma after_eol' cur c : cur < len -> nth_error s cur = Some c -> is_nl c || Nat.eqb cur (len - 1) = true ->
  lstart s (cur + 1) \/ length s <= cur + 1.
Proof.
  intros L Ec E. apply orb_true_iff in E. destruct E as [E|E].
  - left. exact (lstart_nl Ec E).
  - right. apply Nat.eqb_eq in E. lia.
Qed.

Definition items2 (b : bvars) : Prop := exists l, b_lines2 b = L2 l /\ Forall (fun t => no_nul t /\ nbt t) l.
Lemma flush_K b : items2 b -> Forall newline_byte (b_le b) -> b_le b <> [] ->
  exists ls, flush_item b = Ok (set_lines ls (set_lines2 (L2 []) b)).
Proof.
  intros (l & E & Hl) He Hne. unfold flush_item. rewrite E. destruct l as [|x l].
  - exists (b_lines b). destruct b. cbn in E. subst. reflexivity.
  - destruct (@nbt_inline (join_lines (b_le b) (x :: l))) as (h & ->).
    + apply join_no_nul; [|eapply Forall_impl; [|exact Hl]; intros ? [? _]; assumption].
      intro K. rewrite Forall_forall in He. exact (nl_no_nul (He _ K) eq_refl).
    + apply nbt_join; [exact He|exact Hne|]. eapply Forall_impl; [|exact Hl]. intros ? [_ ?]; assumption.
    + eexists. reflexivity.
Qed.
Lemma items_nil b : b_lines2 b = L2 [] -> items2 b.
Proof. intro E. exists []. split; [exact E|constructor]. Qed.

Lemma list_end_K k tag cur c b (again := if k : bool then BOlStart else BUlStart) : cur < len -> nth_error s cur = Some c ->
  good s (b_real b) -> good s (b_end b) -> Forall newline_byte (b_le b) -> b_le b <> [] -> items2 b ->
  b_real b <= cur -> b_start b <= cur -> b_start2 b <= cur ->
  (is_nl c || Nat.eqb cur (len - 1) = false -> inlist k s b cur) ->
  outK (list_end tag again cur c (Nat.eqb cur (len - 1)) b).
Proof.
  intros L Ec Hr He Hle Hne H2 Hrc H3 H4 Hin. unfold list_end. destruct (is_nl c || Nat.eqb cur (len - 1)) eqn:Eol.
  - destruct (flush_K H2 Hle Hne) as (ls & ->). cbn [rbind]. unfold outK, K2, kstate. bcbn.
    repeat (split; [first [assumption|lia|exists []; split; [reflexivity|constructor]]|]).
    split; [reflexivity|]. split; [reflexivity|]. exact (after_eol' L Ec Eol).
  - specialize (Hin eq_refl). unfold outK, K2, kstate. bcbn.
    repeat (split; [first [assumption|lia|exact H2]|]).
    assert (Hn : nonl (sub s cur (cur + 1))).
    { rewrite (sub_snoc (le_n _) Ec). unfold sub. rewrite Nat.sub_diag. constructor; [|constructor].
      apply orb_false_iff in Eol. destruct Eol as [Eol _]. intro X. apply is_nl_iff in X. congruence. }
    subst again. destruct k; (split; [exact Hin|]; split; [lia|exact Hn]).
Qed.
Lemma list_start_K (k : bool) p item tag cur0 cur c b (again := if k then BOlStart else BUlStart) (endst := if k then BOlEnd else BUlEnd) :
  cur < len -> nth_error s cur = Some c -> arrived cur0 cur c b ->
  good s (b_real b) -> good s (b_end b) -> Forall newline_byte (b_le b) -> b_le b <> [] -> items2 b ->
  b_start b <= cur0 -> b_start2 b <= cur0 -> b_state b = again ->
  (if k then b_plen b = length p else b_prefix b = Some p) -> lmark k p (skipn (b_start b) s) ->
  lstart s (b_start b) -> b_start b <= b_start2 b -> lines_on (sub s (b_start b) (b_start2 b)) ->
  (b_start2 b < cur0 /\ nonl (sub s (b_start2 b) cur0)) ->
  (forall t, item t = if k then is_ordered_item t (length p) else starts_with t p) ->
  outK (list_start item (length p) tag again endst s len cur c (Nat.eqb cur (len - 1)) b).
Proof.
  intros L Ec Har Hr He Hle Hne H2 H3 H4 Hst Hk Hm Hs Hse Hu (Hlt & Hn) Hi. unfold list_start.
  assert (Hc0 : cur0 <= cur) by (destruct Har as [(-> & _)|(-> & _)]; lia).
  assert (Hrc : b_real b <= cur) by (destruct Har as [(-> & ?)|(-> & _ & -> & _)]; lia).
  destruct (is_nl c || Nat.eqb cur (len - 1)) eqn:Eol.
  2:{ assert (cur = cur0) by (apply orb_false_iff in Eol; destruct Har as [(-> & _)|(_ & X & _)]; [reflexivity|destruct Eol; congruence]). subst cur0.
      unfold outK, K2, kstate. rewrite Hst. repeat (split; [first [assumption|lia|exact H2]|]).
      assert (Hn' : nonl (sub s (b_start2 b) (cur + 1))).
      { rewrite (sub_snoc H4 Ec). apply Forall_app. split; [exact Hn|]. constructor; [|constructor].
        apply orb_false_iff in Eol. destruct Eol as [Eol _]. intro X. apply is_nl_iff in X. congruence. }
      subst again. destruct k; (split; [exists p; auto|]; split; [lia|exact Hn']). }
  set (b1 := set_end (line_end len cur c b) b).
  pose proof (good_end' L Ec Eol Hr) as G.
  pose proof (list_text L Ec Har Hr Eol Hlt Hn) as Ht. bcbn. change (b_start2 b1) with (b_start2 b). change (b_end b1) with (line_end len cur c b).
  set (t := dup s (b_start2 b) (line_end len cur c b)) in *.
  assert (Tn : no_nul (skipn (length p) t) /\ nbt (skipn (length p) t)).
  { split; [apply no_nul_skipn, no_nul_dup, Hnul|apply nbt_skipn, nbt_dup; [exact Hbsl|exact G|lia]]. }
  destruct (mark_nonl Hm) as [Mp Mn].
  pose proof (@line_kept k b (b_start2 b) cur0 p Hk Hm Hs Hse Hu Hlt ltac:(lia) Hn) as LK.
  pose proof (item_text Ht Mn Mp LK) as IT. rewrite <- Hi in IT.
  assert (FIN : forall b2 : bvars, b_real b2 = b_real b -> b_end b2 = line_end len cur c b -> b_le b2 = b_le b -> items2 b2 ->
    b_start b2 = b_start b -> b_start2 b2 = b_start2 b -> b_plen b2 = b_plen b -> b_prefix b2 = b_prefix b ->
    outK (let b := set_state endst b2 in if Nat.eqb cur (len - 1) then list_end tag again cur c (Nat.eqb cur (len - 1)) b else Ok (cur + 1, b))).
  { intros b2 E1 E2 E3 E4 E5 E6 E7 E8. cbn zeta. destruct (Nat.eqb cur (len - 1)) eqn:La.
    - rewrite <- La. apply (@list_end_K k); bcbn; rewrite ?E1, ?E2, ?E3, ?E5, ?E6; auto; try lia.
    - rewrite orb_false_r in Eol. unfold outK, K2, kstate. bcbn. rewrite E1, E2, E3, E5, E6.
      repeat (split; [first [assumption|lia|exact E4]|]).
      assert (IN : inlist k s (set_state endst b2) (cur + 1)).
      { exists p. bcbn. rewrite E5, E7, E8. split; [exact Hk|]. split; [exact Hm|]. split; [exact Hs|]. split; [lia|].
        exact (@arrived_lines cur0 cur c b (b_start2 b) L Ec Har Eol Hse Hlt Hn Hu). }
      subst endst. destruct k; left; exact IN. }
  assert (P : forall b2 : bvars, items2 b2 -> exists b3, push2 (skipn (length p) t) b2 = Ok b3 /\ items2 b3 /\ b_real b3 = b_real b2 /\ b_end b3 = b_end b2 /\
    b_le b3 = b_le b2 /\ b_start b3 = b_start b2 /\ b_start2 b3 = b_start2 b2 /\ b_plen b3 = b_plen b2 /\ b_prefix b3 = b_prefix b2).
  { intros b2 (l & E & Hl). unfold push2. rewrite E. eexists. split; [reflexivity|]. bcbn. split; [|repeat split].
    exists (l ++ [skipn (length p) t]). split; [reflexivity|]. apply Forall_app. split; [exact Hl|constructor; [exact Tn|constructor]]. }
  destruct (item t).
  - destruct (@flush_K b1 H2 Hle Hne) as (ls & ->). cbn [rbind].
    destruct (P (set_lines ls (set_lines2 (L2 []) b1))) as (b3 & -> & P1 & P2 & P3 & P4 & P5 & P6 & P7 & P8); [exists []; split; [reflexivity|constructor]|].
    cbn [rbind]. apply FIN; bcbn; auto.
  - destruct IT as [IT|IT]; [discriminate|]. rewrite IT. destruct (P b1 H2) as (b3 & -> & P1 & P2 & P3 & P4 & P5 & P6 & P7 & P8).
    cbn [rbind]. apply FIN; bcbn; auto.
Qed.

Lemma blank_sp c : is_sp c = true <-> blank c.
Proof. unfold is_sp, blank. rewrite orb_true_iff, !eqb_true. tauto. Qed.
Lemma sub_one cur c : nth_error s cur = Some c -> sub s cur (cur + 1) = [c].
Proof. intro Ec. rewrite (sub_snoc (le_n _) Ec). unfold sub. rewrite Nat.sub_diag. reflexivity. Qed.
Lemma sub_none cur : sub s cur cur = [].
Proof. unfold sub. rewrite Nat.sub_diag. reflexivity. Qed.

Lemma numbered_nonl p : numbered p -> nonl p.
Proof.
  intros (ds & w & -> & _ & D2 & D3). apply Forall_app. split.
  - eapply Forall_impl; [|exact D2]. cbn. intros a Ha [K|K]; subst a; discriminate.
  - constructor; [intros [K|K]; discriminate|]. eapply Forall_impl; [|exact D3]. cbn. intros a [-> | ->] [K|K]; discriminate.
Qed.

Lemma bstep_K cur0 cur c b : cur < len -> nth_error s cur = Some c -> arrived cur0 cur c b ->
  good s (b_real b) -> good s (b_end b) -> Forall newline_byte (b_le b) -> b_le b <> [] -> items2 b ->
  b_start b <= cur0 -> b_start2 b <= cur0 -> kstate s cur0 b ->
  (only_nl a0 s -> LQ a0 (firstn (cur + 1) s) b /\ (b_lef b = false -> is_nl c = false)) ->
  outK (bstep rec o s len cur c b).
Proof.
  intros L Ec Har Hr He Hle Hle0 H2 H3 H4 HS HL. unfold bstep. set (last := Nat.eqb cur (len - 1)).
  pose proof (after_eol' L Ec) as AE. fold last in AE.
  pose proof (fun b E => @good_end' cur c b L Ec E) as GE. fold last in GE.
  assert (Hcn : is_nl c = false -> cur = cur0) by (intro K; destruct Har as [(? & _)|(_ & K' & _)]; [assumption|congruence]).
  assert (Hc0 : cur0 <= cur) by (destruct Har as [(-> & _)|(-> & _)]; lia).
  assert (Hrc : b_real b <= cur) by (destruct Har as [(-> & ?)|(-> & _ & -> & _)]; lia).
  assert (MK : forall cur' b', good s (b_real b') -> good s (b_end b') -> Forall newline_byte (b_le b') -> b_le b' <> [] ->
    items2 b' -> b_real b' <= cur' -> b_start b' <= cur' -> b_start2 b' <= cur' -> cur' <= length s -> kstate s cur' b' ->
    outK (Ok (cur', b'))) by (intros; unfold outK, K2; tauto).
  assert (PE : forall b' : bvars, good s (b_real b') -> good s (b_end b') -> b_le b' = b_le b -> b_lines2 b' = L2 [] ->
    b_lines b' = [] -> b_real b' <= cur -> b_start b' <= cur -> b_start2 b' <= cur -> outK (para_end o s cur c last b')).
  { intros b' P1 P2 P3 P4 P5 P5' P6 P7. pose proof (items_nil P4) as P8. unfold para_end. destruct (is_nl c || last) eqn:Eol.
    - destruct (@nbt_inline (dup s (b_start b') (b_end b'))) as (h & ->); [apply no_nul_dup, Hnul|apply nbt_dup; [exact Hbsl|exact P2|lia]|].
      cbn [rbind]. apply MK; destruct (o_desc o), (b_desc b'); bcbn; rewrite ?P3; auto; try lia; (split; [auto|]; split; auto).
    - apply MK; bcbn; rewrite ?P3; auto; try lia; unfold kstate; bcbn; auto. }
  assert (HT : forall b' : bvars, good s (b_real b') -> good s (b_end b') -> b_le b' = b_le b -> b_lines2 b' = L2 [] ->
    b_lines b' = [] -> b_real b' <= cur -> b_start b' <= cur -> b_start2 b' <= cur -> b_state b' = BHeaderTitle \/ b_state b' = BHeaderTitleStart ->
    outK (header_title o s len cur c last b')).
  { intros b' P1 P2 P3 P4 P5 P5' P6 P7 P8. pose proof (items_nil P4) as P9. unfold header_title. destruct (is_nl c || last) eqn:Eol.
    - destruct (@nbt_inline (dup s (b_start b') (line_end len cur c b'))) as (h & Eh).
      { apply no_nul_dup, Hnul. } { apply nbt_dup; [exact Hbsl|exact (GE b' eq_refl P1)|lia]. }
      bcbn. destruct (o_fh o), (b_fh b'); bcbn; rewrite Eh; cbn [rbind];
      (apply MK; destruct (o_hdrs o); bcbn; rewrite ?P3; auto; try lia; (split; [auto|]; split; auto)).
    - apply MK; rewrite ?P3; auto; try lia. unfold kstate. destruct P8 as [-> | ->]; auto. }
  assert (QQ : forall (b' : bvars) p w, inquote s b' p w -> only_nl a0 s /\ newline_of s a0 /\ (forall u x v z q y ls, s = u ++ v ++ z -> line_break u ->
     (z = [] \/ exists c r, z = c :: r /\ newline_byte c) -> q = ">"%char :: y -> Forall blank y -> quoted q ls v -> newline_of s x ->
     exists r, rec (lines_text [x] ls) [x] = Ok r)).
  { intros b' p w (_ & _ & I3 & I4). destruct Hq as [K|(K1 & K2 & K3)]; [exfalso|].
    - apply (K (firstn (b_start b') s) (skipn (b_start b' + 1) s)); [|exact I3]. rewrite <- (skipn_at I4). symmetry. apply firstn_skipn.
    - split; [exact K1|]. split; [exact K2|]. intros. eapply K3; eauto. }
  assert (QR : forall (b' : bvars) p w ls e, b_le b' = b_le b -> inquote s b' p w -> quoted p ls (sub s (b_start b') e) -> b_start b' <= e ->
     (skipn e s = [] \/ exists c r, skipn e s = c :: r /\ newline_byte c) -> is_nl c || last = true ->
     exists r, rec (lines_text (b_le b') ls) (b_le b') = Ok r).
  { intros b' p w ls e E1 Iq Q1 Le Hz Eol. destruct (QQ b' p w Iq) as (K1 & K2 & K3). destruct (HL K1) as ((R0 & L1 & L2) & L3).
    destruct Iq as (I1 & I2 & I3 & I4).
    assert (X : exists x, b_le b' = [x] /\ newline_of s x).
    { rewrite E1. destruct (b_lef b) eqn:Elf; [exists a0; auto|]. destruct (L2 eq_refl) as [L4 L5]. exists LF. split; [exact L4|].
      split; [left; reflexivity|right; split; [reflexivity|]]. rewrite (L3 eq_refl) in Eol. cbn [orb] in Eol. apply Nat.eqb_eq in Eol.
      intro K. specialize (L5 CR). rewrite firstn_all2 in L5 by (clear - L Hlen Eol; lia). specialize (L5 K). discriminate. }
    destruct X as (x & -> & Hx). apply (K3 (firstn (b_start b') s) x (sub s (b_start b') e) (skipn e s) p w ls); auto.
    rewrite <- sub_skipn by exact Le. symmetry. apply firstn_skipn. }
  assert (QZ : forall (b' : bvars) p w, inquote s b' p w -> cur = cur0 /\ b_real b = 0).
  { intros b' p w Iq. destruct (QQ b' p w Iq) as (K1 & _). destruct (HL K1) as ((R0 & _) & _). split; [|exact R0].
    destruct Har as [(? & _)|(-> & X1 & _ & n & X2 & X3 & X4)]; [assumption|exfalso]. apply X4.
    rewrite (K1 _ (nth_error_In _ _ X2) X3), (K1 _ (nth_error_In _ _ Ec) X1). reflexivity. }
  assert (QE : forall (b' : bvars) p w ls e, b_le b' = b_le b -> b_real b' = b_real b -> good s (b_end b') -> b_lines2 b' = L2 [] ->
     b_start b' <= cur -> b_lines b' = ls -> b_prefix b' = Some p ->
     inquote s b' p w -> quoted p ls (sub s (b_start b') e) -> b_start b' <= e ->
     (skipn e s = [] \/ exists c r, skipn e s = c :: r /\ newline_byte c) -> (is_nl c || last = false -> e + 1 = cur) ->
     outK (quote_end rec cur c last b')).
  { intros b' p w ls e E1 E2 E3 E4 E5 E6 E7 Iq Q1 Le Hz He1. unfold quote_end. destruct (is_nl c || last) eqn:Eol.
    - rewrite E6. destruct (QR b' p w ls e) as (r & ->); auto. cbn [rbind]. apply MK; bcbn; rewrite ?E1, ?E2; auto; try (clear - L Hlen E5 Hrc; lia); [apply items_nil; exact E4|].
      unfold kstate. bcbn. split; [reflexivity|]. split; [exact E4|]. apply AE. exact eq_refl.
    - specialize (He1 eq_refl). apply MK; bcbn; rewrite ?E1, ?E2; auto; try (clear - L Hlen E5 Hrc; lia); [apply items_nil; exact E4|].
      unfold kstate. bcbn. split; [exact E4|]. exists p, w. bcbn. split; [exact E7|]. split; [exact Iq|]. right. unfold inline_quote. bcbn. rewrite E6.
      destruct Hz as [Hz|(d & r & Hz & Hd)].
      { exfalso. apply (f_equal (@length ascii)) in Hz. rewrite skipn_length in Hz. cbn in Hz. clear - Hz He1 L Hlen. lia. }
      assert (Ed : nth_error s e = Some d) by (rewrite <- (firstn_skipn e s), nth_error_app2 by (rewrite firstn_length; lia); rewrite firstn_length, Nat.min_l, Nat.sub_diag, Hz by (clear - He1 L Hlen; lia); reflexivity).
      exists (sub s (b_start b') e), d. split; [exact Q1|]. split; [exact E5|]. split; [rewrite <- He1; apply sub_snoc; assumption|]. split; [exact Hd|]. split; [clear; lia|].
      rewrite (sub_one Ec). constructor; [|constructor]. apply orb_false_iff in Eol. destruct Eol as [Eol _]. intro X. apply is_nl_iff in X. congruence. }
  unfold kstate in HS. destruct (b_state b) eqn:St.
  - (* start *)
    destruct HS as (HS1 & HS0 & HS2). destruct (is_nl c || last) eqn:Eol.
    { apply MK; auto; try lia. unfold kstate. rewrite St. auto. }
    assert (cur = cur0) by (apply Hcn; apply orb_false_iff in Eol; apply Eol). subst cur0.
    assert (HS3 : lstart s cur) by (destruct HS2; [assumption|lia]).
    pose proof (sub_one Ec) as Sb.
    apply MK; repeat match goal with |- context [if ?e then _ else _] => let E := fresh "E" in destruct e eqn:E end;
      bcbn; auto; try (clear - L Hlen H3 H4 Hc0 Hrc; lia); unfold kstate; bcbn; auto.
    + repeat split; auto; [clear - L; lia| |rewrite sub_none; constructor|intros; exfalso; clear - H0; lia].
      apply orb_true_iff in E1. destruct E1 as [E1|E1].
      * apply orb_true_iff in E1. rewrite !eqb_true in E1. destruct E1 as [-> | ->]; [left|right; left]; reflexivity.
      * apply eqb_true in E1. subst c. right; right; left. reflexivity.
    + repeat split; auto; [clear - L; lia|]. rewrite Sb. constructor; auto.
    + match goal with H : (c == ">"%char) = true |- _ => apply eqb_true in H; subst c end. repeat split; auto; [clear - L; lia|].
      rewrite sub_none. constructor.
  - (* excerpt *)
    apply MK; repeat match goal with |- context [if ?e then _ else _] => destruct e end;
      bcbn; auto; try lia; unfold kstate; bcbn; rewrite ?St; auto.
  - apply MK; repeat match goal with |- context [if ?e then _ else _] => let E := fresh "E" in destruct e eqn:E end;
      bcbn; auto; try lia; unfold kstate; bcbn; rewrite ?St; auto.
    destruct HS. split; [auto|]. split; [auto|]. apply AE. apply andb_true_iff in E. destruct E as [_ ->]. reflexivity.
  - apply MK; repeat match goal with |- context [if ?e then _ else _] => destruct e end;
      bcbn; auto; try lia; unfold kstate; bcbn; rewrite ?St; auto.
  - destruct HS as [HS1 HS2]. destruct (is_sp c).
    { apply MK; auto; try lia. unfold kstate. rewrite St. auto. }
    destruct (negb (is_nl c)).
    { apply MK; bcbn; auto; try lia; unfold kstate; bcbn; auto. }
    apply HT; bcbn; auto. lia.
  - destruct HS as [HS1 HS2]. apply HT; auto; lia.
  - (* html *)
    destruct HS as [HS1 HS2]. destruct last eqn:El.
    + unfold html_end. rewrite orb_true_r. bcbn. apply MK; bcbn; auto; try lia.
      * apply GE; auto. apply orb_true_r.
      * unfold kstate. bcbn. split; auto. split; auto. apply AE. apply orb_true_r.
    + rewrite orb_false_r in *. destruct (is_nl c) eqn:En; apply MK; bcbn; auto; try lia; unfold kstate; bcbn; rewrite ?St; auto.
  - destruct HS as [HS1 HS2]. unfold html_end. destruct (is_nl c || last) eqn:Eol; apply MK; bcbn; auto; try lia; unfold kstate; bcbn; auto.
  - (* the mark of a quote *)
    destruct HS as (Q1 & Q2 & Q3 & Q4 & Q5 & Q6 & Q7).
    assert (Iq : inquote s b (">"%char :: sub s (b_start b + 1) cur0) (sub s (b_start b + 1) cur0)) by (split; [reflexivity|split; [exact Q7|split; [exact Q4|exact Q6]]]).
    destruct (QZ _ _ _ Iq) as (<- & R0). destruct (is_sp c) eqn:Es.
    + apply MK; auto; try lia. unfold kstate. rewrite St. repeat (split; [first [assumption|lia]|]).
      unfold blanks. rewrite (@sub_snoc s (b_start b + 1) cur c) by (assumption || lia). apply Forall_app. split; [exact Q7|].
      constructor; [apply blank_sp, Es|constructor].
    + assert (Es' : sub s (b_start b) cur = ">"%char :: sub s (b_start b + 1) cur).
      { apply (app_inv_tail (skipn cur s)). rewrite <- sub_skipn by lia. rewrite (skipn_at Q6). cbn [app]. f_equal. apply sub_skipn. lia. }
      apply MK; bcbn; auto; try lia. unfold kstate. bcbn. rewrite dup_sub by lia. split; [exact Q2|]. eexists _, (sub s (b_start b + 1) cur).
      split; [reflexivity|]. rewrite Es'. split; [exact Iq|]. left. bcbn. split; [exact Q1|]. split; [exact Q3|]. split; [lia|].
      rewrite (sub_snoc (Nat.lt_le_incl _ _ Q5) Ec), Es'. assert (Nb : ~ blank c) by (intro K; apply blank_sp in K; congruence).
      destruct (is_nl c) eqn:En.
      * exists [c], [], c, []. split; [rewrite app_nil_r; reflexivity|]. split; [reflexivity|]. split; [exact Nb|]. split; [right; exists c; split; [reflexivity|apply is_nl_iff, En]|constructor].
      * exists [], [c], c, []. split; [reflexivity|]. split; [reflexivity|]. split; [exact Nb|]. split; [left; reflexivity|].
        constructor; [intro K; apply is_nl_iff in K; congruence|constructor].
  - (* a line of a quote *)
    destruct HS as (Q2 & p & w & Ep & Iq & Hl). destruct (QZ _ _ _ Iq) as (<- & R0). rewrite Ep.
    assert (Hcl : is_nl c = false -> inline_quote s b p (cur + 1)).
    { intro En. assert (Cn : ~ newline_byte c) by (intro X; apply is_nl_iff in X; congruence). destruct Hl as [(Q1 & Q3 & Q4 & n & l & d & r & Q5 & Q6 & Q7 & Q8 & Q9)|(u & d & Q1 & Q3 & Q4 & Q5 & Q6 & Q7)].
      - left. split; [exact Q1|]. split; [exact Q3|]. split; [lia|]. exists n, (l ++ [c]), d, (r ++ [c]).
        rewrite (sub_snoc (Nat.lt_le_incl _ _ Q4) Ec), Q5. rewrite <- !app_assoc. split; [reflexivity|]. split; [rewrite app_assoc, Q6; reflexivity|]. split; [exact Q7|]. split; [exact Q8|].
        apply Forall_app. split; [exact Q9|constructor; [exact Cn|constructor]].
      - right. exists u, d. repeat (split; [first [assumption|lia]|]). rewrite (sub_snoc (Nat.lt_le_incl _ _ Q6) Ec). apply Forall_app. split; [exact Q7|constructor; [exact Cn|constructor]]. }
    destruct (is_nl c || last) eqn:Eol.
    2:{ apply MK; auto; try lia. unfold kstate. rewrite St. split; [exact Q2|]. exists p, w. split; [exact Ep|]. split; [exact Iq|].
        apply Hcl. apply orb_false_iff in Eol. apply Eol. }
    assert (T : exists e, line_end len cur c b = e /\ inline_quote s b p e /\ e <= length s /\ cur <= e /\ (e = cur /\ is_nl c = true \/ e = cur + 1 /\ is_nl c = false) /\
      (skipn e s = [] \/ exists c r, skipn e s = c :: r /\ newline_byte c)).
    { unfold line_end. rewrite R0. cbn [Nat.eqb]. fold last. destruct (is_nl c) eqn:En; cbn [negb].
      - rewrite andb_false_r. exists cur. split; [reflexivity|]. split; [exact Hl|]. split; [lia|]. split; [lia|]. split; [auto|]. right. exists c, (skipn (cur + 1) s). split; [apply skipn_at, Ec|apply is_nl_iff, En].
      - cbn [orb] in Eol. rewrite Eol. cbn [andb]. assert (cur + 1 = len) by (apply Nat.eqb_eq in Eol; clear - Eol L; lia). exists len. split; [reflexivity|]. split; [rewrite <- H; apply Hcl, eq_refl|].
        split; [lia|]. split; [lia|]. split; [right; auto|]. left. apply skipn_all2. lia. }
    destruct T as (e & Ee & Hle1 & He1 & He2 & He3 & Hz). rewrite Ee. bcbn.
    destruct (starts_with (dup s (b_start2 b) e) p) eqn:Esw.
    + assert (QD : quoted p (b_lines b ++ [skipn (length p) (dup s (b_start2 b) e)]) (sub s (b_start b) e) /\ b_start b <= e).
      { destruct Hle1 as [(Q1 & Q3 & Q4 & n & l & d & r & Q5 & Q6 & Q7 & Q8 & Q9)|(u & d & Q1 & Q3 & Q4 & Q5 & Q6 & Q7)].
        - rewrite Q1, Q3, dup_sub, Q5, skipn_len by lia. cbn [app]. split; [|lia]. eapply QL_first; eauto.
        - rewrite dup_sub in * by lia. apply BlockSafe.starts_with_app in Esw. split; [|lia].
          rewrite (@sub_split s (b_start b) e (b_start2 b)), Q4 by lia. rewrite <- app_assoc. cbn [app]. rewrite Esw at 2. apply QL_next; auto.
          unfold nonl in Q7. rewrite Esw in Q7. apply Forall_app in Q7. apply Q7. }
      destruct QD as (QD & Le1). destruct last eqn:El.
      * eapply QE with (p := p) (w := w) (e := e); bcbn; try exact Ep; try exact QD; try exact Iq; try reflexivity; auto.
        -- right. destruct He3 as [(-> & X)|(-> & X)]; [right; exists c; split; [exact Ec|apply is_nl_iff, X]|left; apply Nat.eqb_eq in El; lia].
        -- intro X. exfalso. revert X. rewrite ?El, ?orb_true_r. discriminate.
      * rewrite orb_false_r in Eol. destruct He3 as [(-> & X)|(_ & X)]; [|congruence]. apply MK; bcbn; auto; try lia; try (apply items_nil; exact Q2).
        { right. right. exists c. split; [exact Ec|apply is_nl_iff, X]. }
        unfold kstate. bcbn. split; [exact Q2|]. exists p, w. split; [exact Ep|]. split; [exact Iq|]. right. exists (sub s (b_start b) cur), c. split; [exact QD|].
        split; [apply sub_snoc; assumption|apply is_nl_iff, X].
    + assert (GEe : good s e) by (destruct He3 as [(-> & X)|(-> & X)]; [right; right; exists c; split; [exact Ec|apply is_nl_iff, X]|
        right; left; rewrite X in Eol; cbn in Eol; apply Nat.eqb_eq in Eol; lia]).
      destruct last; apply MK; bcbn; auto; try lia; try (apply items_nil; exact Q2); unfold kstate; bcbn; auto.
  - destruct HS as (Q2 & p & w & Ep & Iq & Hl). destruct (QZ _ _ _ Iq) as (<- & R0). destruct Hl as [Hl|(u & d & Q1 & Q3 & Q4)]; [lia|].
    assert (Le : b_start b < cur).
    { destruct (Nat.lt_ge_cases (b_start b) cur) as [|K]; [assumption|exfalso]. unfold sub in Q3. replace (cur - b_start b) with 0 in Q3 by lia. destruct u; discriminate. }
    assert (X : exists c1, nth_error s (cur - 1) = Some c1) by (destruct (nth_error s (cur - 1)) as [c1|] eqn:E; [eauto|apply nth_error_None in E; lia]).
    destruct X as (c1 & E1). pose proof (@sub_snoc s (b_start b) (cur - 1) c1 ltac:(lia) E1) as X. replace (cur - 1 + 1) with cur in X by lia.
    rewrite Q3 in X. apply app_inj_tail in X. destruct X as [-> ->].
    eapply QE with (e := cur - 1); eauto; try lia. right. exists c1, (skipn (cur - 1 + 1) s). split; [apply skipn_at, E1|exact Q4].
  - (* code *)
    destruct HS as [HS1 HS2]. destruct (is_sp c).
    + apply MK; auto; try lia. unfold kstate. rewrite St. auto.
    + apply MK; bcbn; auto; try lia. unfold kstate. bcbn. split; [discriminate|auto].
  - destruct HS as [HS1 HS2]. destruct (is_nl c || last) eqn:Eol.
    2:{ apply MK; auto; try lia. unfold kstate. rewrite St. auto. }
    destruct (b_prefix b) as [pre|] eqn:Ep; [|congruence]. bcbn.
    destruct (starts_with _ pre).
    + destruct last eqn:El.
      * unfold code_end. rewrite orb_true_r. bcbn. apply MK; bcbn; auto; try lia. unfold kstate. bcbn. auto.
      * apply MK; bcbn; auto; try lia. unfold kstate. bcbn. split; [congruence|auto].
    + destruct last; apply MK; bcbn; auto; try lia; unfold kstate; bcbn; auto.
  - destruct HS as [HS1 HS2]. unfold code_end. destruct (is_nl c || last) eqn:Eol; apply MK; bcbn; auto; try lia; unfold kstate; bcbn; auto.
  - (* list or rule *)
    destruct HS as (Q1 & Q0 & Q2 & Q3 & Q4 & Q5 & Q6 & Q7 & Q8).
    destruct (Nat.eqb cur (b_start b + 1) && (c == b_d b)) eqn:E1.
    { apply MK; bcbn; auto; try lia; unfold kstate; bcbn; auto. }
    destruct (Nat.eqb cur (b_start b + 1) && negb (is_sp c) && (b_d b == "*"%char)) eqn:E2.
    { apply MK; bcbn; auto; try lia; unfold kstate; bcbn; auto. }
    destruct (is_sp c) eqn:Es.
    + assert (En : is_nl c = false) by (apply blank_sp in Es; destruct Es as [-> | ->]; reflexivity).
      assert (cur = cur0) by auto. subst cur0. apply MK; auto; try lia. unfold kstate. rewrite St.
      repeat (split; [first [assumption|lia]|]). split.
      * unfold blanks. rewrite (@sub_snoc s (b_start b + 1) cur c) by (assumption || lia). apply Forall_app. split; [exact Q7|].
        constructor; [apply blank_sp, Es|constructor].
      * intros Hd _. destruct (Nat.eq_dec cur (b_start b + 1)) as [<-|Nc]; [exists c; split; [exact Ec|apply blank_sp, Es]|apply Q8; [exact Hd|lia]].
    + (* the prefix *)
      assert (Esk : forall m, b_start b + 1 <= m -> skipn (b_start b) s = (b_d b :: sub s (b_start b + 1) m) ++ skipn m s).
      { intros m Lm. rewrite (skipn_at Q5). cbn [app]. f_equal. apply sub_skipn. exact Lm. }
      assert (En : is_nl c = false).
      { destruct (is_nl c) eqn:En; [|reflexivity]. exfalso.
        assert (X : exists n, nth_error s cur0 = Some n /\ newline_byte n).
        { destruct Har as [(-> & _)|(_ & _ & _ & n & E3 & E4 & _)]; [exists c|exists n]; (split; [assumption|apply is_nl_iff; assumption]). }
        destruct X as (n & E3 & E4). apply (Hei (x := firstn (b_start b) s) (p := b_d b :: sub s (b_start b + 1) cur0) (c := n) (r := skipn (cur0 + 1) s)); auto; [|left; eauto].
        rewrite <- (skipn_at E3), <- Esk by lia. symmetry. apply firstn_skipn. }
      assert (cur = cur0) by auto. subst cur0.
      assert (Dn : ~ newline_byte (b_d b)).
      { intro K. cbn in Q6. destruct K as [K|K]; rewrite K in Q6; destruct Q6 as [Q6|[Q6|[Q6|[]]]]; discriminate. }
      assert (Cn : ~ newline_byte c) by (intro K; apply is_nl_iff in K; congruence).
      assert (Es' : sub s (b_start b) cur = b_d b :: sub s (b_start b + 1) cur).
      { apply (app_inv_tail (skipn cur s)). rewrite <- sub_skipn by lia. rewrite (Esk cur) by lia. reflexivity. }
      apply MK; bcbn; auto; try lia. unfold kstate. bcbn. rewrite Q2, dup_sub by lia. split; [|split; [lia|]].
      * exists (sub s (b_start b) cur). bcbn. split; [reflexivity|]. split; [|split; [exact Q3|split; [lia|rewrite sub_none; constructor]]].
        exists (b_d b), (sub s (b_start b + 1) cur), c, (skipn (cur + 1) s). split; [exact Es'|]. split; [rewrite <- (skipn_at Ec); apply sub_skipn; lia|].
        split; [exact Q6|]. split; [exact Q7|]. split; [intro K; apply blank_sp in K; congruence|]. split; [exact Cn|].
        intro K. apply (f_equal (@length ascii)) in K. rewrite sub_length in K by lia. cbn in K. assert (cur = b_start b + 1) by lia.
        apply Nat.eqb_eq in H. rewrite H in E1, E2. cbn in E1, E2. split; [apply eqb_false, E1|apply eqb_false, E2].
      * rewrite (sub_snoc (Nat.lt_le_incl _ _ Q4) Ec). apply Forall_app. split; [|constructor; [exact Cn|constructor]].
        rewrite Es'. constructor; [exact Dn|]. eapply Forall_impl; [|exact Q7]. intros a [-> | ->] [K|K]; discriminate.
  - destruct HS as [HS1 HS2]. destruct (c == b_d b); [destruct last|]; apply MK; bcbn; auto; try lia; unfold kstate; bcbn; auto.
  - destruct HS as [HS1 HS2]. repeat match goal with |- context [if ?e then _ else _] => let E := fresh "E" in destruct e eqn:E end;
      apply MK; bcbn; auto; try lia; unfold kstate; bcbn; rewrite ?St; auto.
  - (* bullets *)
    destruct HS as ((p & Hp & Hm & Hs & Hse & Hu) & Hlt). rewrite Hp. apply (@list_start_K false p) with (cur0 := cur0); auto.
  - apply (@list_end_K false); auto; try lia. intro Eol. assert (cur = cur0) by (apply Hcn; apply orb_false_iff in Eol; apply Eol). subst cur0.
    destruct HS as [HS|HS]; [exact HS|lia].
  - (* digits *)
    destruct HS as (Q1 & Q0 & Q2 & Q3 & Q4 & Q5). destruct (is_digit c) eqn:Edg.
    + assert (En : is_nl c = false).
      { destruct (is_nl c) eqn:En; [|reflexivity]. apply is_nl_iff in En. destruct En as [-> | ->]; discriminate. }
      assert (cur = cur0) by auto. subst cur0. apply MK; auto; try lia. unfold kstate. rewrite St. repeat (split; [first [assumption|lia]|]).
      rewrite (sub_snoc (Nat.lt_le_incl _ _ Q4) Ec). apply Forall_app. auto.
    + destruct (c == "."%char) eqn:Ept.
      * apply eqb_true in Ept. subst c. assert (cur = cur0) by auto. subst cur0.
        apply MK; bcbn; auto; try lia. unfold kstate. bcbn. repeat (split; [first [assumption|lia]|]).
        rewrite (sub_snoc (Nat.lt_le_incl _ _ Q4) Ec). exists (sub s (b_start b) cur), []. split; [reflexivity|]. split; [|split; [exact Q5|constructor]].
        intro K. apply (f_equal (@length ascii)) in K. rewrite sub_length in K by lia. cbn in K. lia.
      * destruct last; apply MK; bcbn; auto; try lia; unfold kstate; bcbn; auto.
  - (* the blanks after a number *)
    destruct HS as (Q1 & Q0 & Q2 & Q3 & Q4 & Q5). destruct (is_sp c) eqn:Es.
    + assert (En : is_nl c = false) by (apply blank_sp in Es; destruct Es as [-> | ->]; reflexivity).
      assert (cur = cur0) by auto. subst cur0. apply MK; auto; try lia. unfold kstate. rewrite St. repeat (split; [first [assumption|lia]|]).
      rewrite (sub_snoc (Nat.lt_le_incl _ _ Q4) Ec). destruct Q5 as (ds & w & -> & D1 & D2 & D3).
      exists ds, (w ++ [c]). split; [rewrite <- app_assoc; reflexivity|]. split; [exact D1|]. split; [exact D2|].
      apply Forall_app. split; [exact D3|]. constructor; [apply blank_sp, Es|constructor].
    + assert (Ln : length (sub s (b_start b) cur0) = cur0 - b_start b) by (apply sub_length; lia).
      assert (Nn : nonl (sub s (b_start b) cur0)) by (apply numbered_nonl, Q5).
      destruct (is_nl c) eqn:En.
      * (* a number and nothing else *)
        exfalso. assert (X : exists n, nth_error s cur0 = Some n /\ newline_byte n).
        { destruct Har as [(-> & _)|(_ & _ & _ & n & E3 & E4 & _)]; [exists c|exists n]; (split; [assumption|apply is_nl_iff; assumption]). }
        destruct X as (n & E3 & E4). apply (Hei (x := firstn (b_start b) s) (p := sub s (b_start b) cur0) (c := n) (r := skipn (cur0 + 1) s)); auto.
        rewrite <- (skipn_at E3), <- sub_skipn by lia. symmetry. apply firstn_skipn.
      * assert (cur = cur0) by auto. subst cur0. cbn [orb].
        assert (Cn : ~ newline_byte c) by (intro K; apply is_nl_iff in K; congruence).
        assert (M : number_mark (sub s (b_start b) cur) (skipn (b_start b) s)).
        { exists c, (skipn (cur + 1) s). split; [rewrite <- (skipn_at Ec); apply sub_skipn; lia|]. split; [exact Q5|]. split; [|exact Cn].
          intro K. apply blank_sp in K. congruence. }
        destruct last eqn:El; cbn [negb].
        -- rewrite <- El. change (b_plen (set_plen (cur - b_start b) (set_state BOlStart b))) with (cur - b_start b). rewrite <- Ln.
           apply (@list_start_K true (sub s (b_start b) cur)) with (cur0 := cur); bcbn; rewrite ?Q2; auto; try lia.
           rewrite sub_none. constructor.
        -- apply MK; bcbn; auto; try lia. unfold kstate. bcbn. rewrite Q2. split; [|split; [lia|]].
           ++ exists (sub s (b_start b) cur). bcbn. repeat (split; [first [assumption|lia]|]). rewrite sub_none. constructor.
           ++ rewrite (sub_snoc (Nat.lt_le_incl _ _ Q4) Ec). apply Forall_app. split; [exact Nn|constructor; [exact Cn|constructor]].
  - destruct HS as ((p & Hp & Hm & Hs & Hse & Hu) & Hlt). rewrite Hp. apply (@list_start_K true p) with (cur0 := cur0); auto.
  - apply (@list_end_K true); auto; try lia. intro Eol. assert (cur = cur0) by (apply Hcn; apply orb_false_iff in Eol; apply Eol). subst cur0.
    destruct HS as [HS|HS]; [exact HS|lia].
  - (* paragraph *)
    destruct HS as [HS1 HS2]. destruct last eqn:El.
    + rewrite orb_true_r. apply PE; bcbn; auto; try lia.
      apply GE; auto. apply orb_true_r.
    + rewrite orb_false_r in *. destruct (is_nl c) eqn:En; apply MK; bcbn; auto; try lia; unfold kstate; bcbn; rewrite ?St; auto.
  - destruct HS as [HS1 HS2]. apply PE; auto; lia.
Qed.

Lemma L_newline cur b c cu c1 b1 : newline_byte a0 -> only_nl a0 s -> LQ a0 (firstn cur s) b -> nth_error s cur = Some c ->
  (cu = cur /\ c1 = c /\ (is_nl c = false /\ b1 = b \/ is_nl c = true /\ b1 = note_le [c] b) \/
   cu = cur + 1 /\ is_nl c = true /\ is_nl c1 = true /\ c1 <> c /\ b1 = set_real cur (note_le [c; c1] b)) ->
  nth_error s cu = Some c1 ->
  cu = cur /\ c1 = c /\ LQ a0 (firstn (cur + 1) s) b1 /\ (b_lef b1 = false -> is_nl c = false).
Proof.
  intros Ha Ho (K1 & K2 & K3) Ec Hc Ec1. pose proof (firstn_snoc Ec) as F1.
  destruct Hc as [(-> & -> & [(Hn & ->)|(Hn & ->)])|(_ & Hn & Hn1 & Hne & _)].
  - repeat split; auto; [apply K3; assumption|]. intros d Hd. rewrite F1 in Hd. apply in_app_or in Hd. destruct Hd as [Hd|[<-|[]]]; [apply K3|]; auto.
  - assert (c = a0) by (apply Ho; [exact (nth_error_In _ _ Ec)|exact Hn]). subst c.
    unfold note_le. destruct (b_lef b) eqn:Lf; repeat split; bcbn; auto; try congruence; try discriminate; intro; congruence.
  - exfalso. apply Hne. rewrite (Ho _ (nth_error_In _ _ Ec) Hn), (Ho _ (nth_error_In _ _ Ec1) Hn1). reflexivity.
Qed.
Lemma iter_L cur b : newline_byte a0 -> only_nl a0 s -> LQ a0 (firstn cur s) b -> cur < len ->
  match iter rec o s len cur b with Ok (cur', b') => LQ a0 (firstn cur' s) b' | _ => True end.
Proof.
  intros Ha Ho HL Lc. unfold iter.
  destruct (nth_error s cur) as [c|] eqn:Ec; [|apply nth_error_None in Ec; lia].
  rewrite (crd_at Ec). cbn [rbind].
  destruct (newline_ok b Hlen Ec) as (cu & c1 & b1 & E & Ec1 & Hcu & Hc). rewrite E. cbn [rbind].
  destruct (L_newline Ha Ho HL Ec Hc Ec1) as (-> & -> & HL1 & _).
  destruct (bstep rec o s len cur c b1) as [(cu & b2)| |] eqn:Eb; auto.
  destruct (bstep_framed Eb) as (G1 & G2 & G3). pose proof (bstep_moves Eb) as M.
  destruct HL1 as (K1 & K2 & K3). unfold LQ. rewrite G1, G2, G3. split; [exact K1|]. split; [exact K2|]. intro Lf. destruct (K3 Lf) as [K4 K5]. split; [exact K4|].
  intros d Hd. apply K5. destruct M as [->|(-> & _)]; [exact Hd|]. rewrite (firstn_snoc Ec). apply in_or_app. auto.
Qed.
Lemma iter_K cur b : newline_byte a0 -> K2 s cur b -> (only_nl a0 s -> LQ a0 (firstn cur s) b) -> cur < len -> outK (iter rec o s len cur b).
Proof.
  intros Ha (Hr & He & Hle & Hle0 & H2 & Hrc & H3 & H4 & H5 & HS) HL Lc. unfold iter.
  destruct (nth_error s cur) as [c|] eqn:Ec; [|apply nth_error_None in Ec; lia].
  rewrite (crd_at Ec). cbn [rbind].
  destruct (newline_ok b Hlen Ec) as (cu & c1 & b1 & E & Ec1 & Hcu & Hc). rewrite E. cbn [rbind].
  assert (LN : only_nl a0 s -> LQ a0 (firstn (cu + 1) s) b1 /\ (b_lef b1 = false -> is_nl c1 = false)).
  { intro Ho. destruct (L_newline Ha Ho (HL Ho) Ec Hc Ec1) as (-> & -> & HL1 & HL2). split; assumption. }
  assert (NL : forall e, Forall newline_byte e -> e <> [] -> let b2 := note_le e b in
     b_real b2 = b_real b /\ good s (b_end b2) /\ Forall newline_byte (b_le b2) /\ b_le b2 <> [] /\
     items2 b2 /\ b_start b2 <= cur /\ b_start2 b2 <= cur /\ kstate s cur b2).
  { intros e E1 E2. cbn zeta. unfold note_le. destruct (b_lef b); bcbn; repeat split; auto. }
  destruct Hc as [(-> & -> & [(Hn & ->)|(Hn & ->)])|(-> & Hn & Hn1 & Hne & ->)].
  - apply (@bstep_K cur); auto. left. auto.
  - destruct (NL [c]) as (K1 & K2 & K3 & K4 & K5 & K6 & K7 & K8).
    { constructor; [apply is_nl_iff, Hn|constructor]. } { discriminate. }
    apply (@bstep_K cur); auto; [left; split; [reflexivity|rewrite K1; exact Hrc]|rewrite K1; exact Hr].
  - destruct (NL [c; c1]) as (K1 & K2 & K3 & K4 & K5 & K6 & K7 & K8).
    { constructor; [apply is_nl_iff, Hn|constructor; [apply is_nl_iff, Hn1|constructor]]. } { discriminate. }
    apply (@bstep_K cur); auto.
    + lia.
    + right. split; [reflexivity|]. split; [exact Hn1|]. split; [reflexivity|]. exists c. auto.
    + bcbn. right. right. exists c. split; [exact Ec|apply is_nl_iff, Hn].
Qed.
End List.

Lemma K0 s le : le = None \/ (exists a, le = Some [a] /\ newline_byte a) -> K2 s 0 (bv0 le).
Proof.
  intro H. unfold K2. split; [left; reflexivity|]. split; [left; reflexivity|].
  split; [destruct H as [->|(a & -> & Ha)]; cbn; (constructor; [|constructor]); [left; reflexivity|exact Ha]|].
  split; [destruct H as [->|(a & -> & Ha)]; discriminate|]. split; [exists []; split; [reflexivity|constructor]|]. cbn.
  repeat (split; [first [lia|reflexivity]|]). left. left. reflexivity.
Qed.
Lemma LQ0 a le : le = None \/ le = Some [a] -> LQ a [] (bv0 le).
Proof.
  intros [->| ->]; (split; [reflexivity|]); cbn; (split; [intros; first [discriminate|reflexivity]|]); intros; [split; [reflexivity|intros c []]|discriminate].
Qed.
Lemma content_lists f o s : no_nul s -> no_trailing_backslash s -> no_quote_lines s -> no_empty_items s -> lists_kept s ->
  exists b, content_parse (S f) o s None = Ok b.
Proof.
  intros Hn Hb Hq Hei Hk. cbn [content_parse]. set (rec := fun t e => _).
  assert (St : forall cur b, K2 s cur b /\ (only_nl LF s -> LQ LF (firstn cur s) b) -> cur < length s ->
    match iter rec o s (length s) cur b with Ok (cur', b') => K2 s cur' b' /\ (only_nl LF s -> LQ LF (firstn cur' s) b') | UB => False | OutOfFuel => False end).
  { intros cur b (H1 & H2) L. pose proof (iter_K (rec := rec) o eq_refl Hn Hb (a0 := LF) (or_introl Hq) Hei Hk (or_introl eq_refl) H1 H2 L) as K.
    assert (K' := fun H => iter_L rec o (s := s) eq_refl (a0 := LF) (or_introl eq_refl) H (H2 H) L). unfold outK in K.
    destruct (iter rec o s (length s) cur b) as [(cur', b')| |]; auto. }
  pose proof (@bloop_inv rec o s (length s) _ False False eq_refl St (2 * length s) 0 (bv0 None)) as K.
  cbn beta in K. specialize (K (conj (K0 s (or_introl eq_refl)) (fun _ => LQ0 (or_introl eq_refl))) (Nat.le_0_l _)).
  destruct (bloop _ rec o s _ 0 (bv0 None)); [eauto| |];
    destruct K; pose proof (need_le (length s) 0 (bv0 None)); lia.
Qed.
