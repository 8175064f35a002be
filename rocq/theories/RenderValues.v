(* Variables, conditions and lists: the code computes the values the
   specification gives. *)
From Verif Require Import Base Utils UtilsProofs Trie Template Renderer RenderSpec.
#[local] Arguments B : simpl never.

Lemma get_variable_lookup name g l : get_variable name g l = lookup name g l.
Proof. destruct l as [l|]; [|reflexivity]. unfold get_variable, lookup. destruct (trie_lookup l name); reflexivity. Qed.

(* ---- words ---- *)

Lemma words_split s : forall n w, filter (fun p => negb (beq p [])) (split_go SP 0 n w s) = words_from w s.
Proof.
  induction s as [|c r IH]; intros n w; cbn [split_go words_from].
  - destruct w; reflexivity.
  - cbn [Nat.eqb orb]. rewrite andb_true_r. destruct (c == SP).
    + cbn [filter]. rewrite IH. destruct w; reflexivity.
    + apply IH.
Qed.

Lemma split_list_words name g l : split_list_variable name g l =
  match lookup name g l with Some s => words s | None => [] end.
Proof.
  unfold split_list_variable. rewrite get_variable_lookup. destruct (lookup name g l) as [s|]; [|reflexivity].
  destruct s as [|c s]; [reflexivity|]. unfold str_split, words. apply words_split.
Qed.

(* ---- comparison ---- *)

Lemma strcmp_before a : forall b, match strcmp a b with
  | Lt => before a b = true /\ before b a = false /\ beq a b = false
  | Eq => before a b = false /\ before b a = false /\ beq a b = true
  | Gt => before a b = false /\ before b a = true /\ beq a b = false
  end.
Proof.
  induction a as [|x a IH]; intros [|y b]; cbn [strcmp before]; auto.
  assert (Hb : beq (x :: a) (y :: b) = (N.eqb (nb x) (nb y)) && beq a b).
  { cbn [beq]. f_equal. destruct (Ascii.eqb_spec x y) as [->|H]; [rewrite N.eqb_refl; reflexivity|].
    symmetry. apply N.eqb_neq. intro E. apply H. unfold nb in E. rewrite <- (ascii_N_embedding x), <- (ascii_N_embedding y), E. reflexivity. }
  rewrite Hb. specialize (IH b).
  destruct (N.compare_spec (nb x) (nb y)) as [E|E|E].
  - rewrite E, N.ltb_irrefl, N.eqb_refl. cbn. exact IH.
  - apply N.ltb_lt in E as E1. rewrite E1. assert (E2 : N.ltb (nb y) (nb x) = false) by (apply N.ltb_ge; lia).
    assert (E3 : N.eqb (nb x) (nb y) = false) by (apply N.eqb_neq; lia).
    assert (E4 : N.eqb (nb y) (nb x) = false) by (apply N.eqb_neq; lia). rewrite E2, E3, E4. auto.
  - apply N.ltb_lt in E as E1. rewrite E1. assert (E2 : N.ltb (nb x) (nb y) = false) by (apply N.ltb_ge; lia).
    assert (E3 : N.eqb (nb x) (nb y) = false) by (apply N.eqb_neq; lia).
    assert (E4 : N.eqb (nb y) (nb x) = false) by (apply N.eqb_neq; lia). rewrite E2, E3, E4. auto.
Qed.

Lemma op_holds_compare o a b : o <> ONone -> op_holds o (strcmp a b) = compare o a b.
Proof.
  intro Ho. pose proof (strcmp_before a b) as H.
  destruct (strcmp a b), o; cbn; destruct H as (H1 & H2 & H3); rewrite ?H1, ?H2, ?H3; try reflexivity; congruence.
Qed.

Lemma quoted_operand d : (if Nat.leb 2 (length d) && (nth 0 d NUL == DQ) && (nth (length d - 1) d NUL == DQ)
  then Some (firstn (length d - 2) (skipn 1 d)) else None) = is_quoted d.
Proof.
  destruct d as [|c r]; [reflexivity|]. cbn [is_quoted length nth skipn]. destruct r as [|x r] using rev_ind.
  - cbn. destruct (c == DQ); reflexivity.
  - clear IHr. rewrite app_length. cbn [length].
    replace (S (length r + 1) - 1) with (S (length r)) by lia. replace (S (length r + 1) - 2) with (length r) by lia.
    rewrite last_last, removelast_last. cbn [nth]. rewrite app_nth2, Nat.sub_diag by lia. cbn [nth].
    destruct (Nat.leb_spec 2 (S (length r + 1))); [|lia]. cbn [andb].
    destruct (c == DQ), (x == DQ); cbn; try reflexivity.
    rewrite firstn_app, Nat.sub_diag, firstn_all. cbn. rewrite app_nil_r. reflexivity.
Qed.

(* ---- suffixes ---- *)

Lemma span_digits_spec s : let '(d, x) := span_digits s in
  s = d ++ x /\ forallb is_digit d = true /\ match x with c :: _ => is_digit c = false | [] => True end.
Proof.
  induction s as [|c s IH]; cbn; [auto|]. destruct (is_digit c) eqn:E; [|auto].
  destruct (span_digits s) as [d x]. destruct IH as (-> & H1 & H2). cbn. rewrite E. auto.
Qed.

Lemma nth_app_l (a b : bytes) i : i < length a -> nth i (a ++ b) NUL = nth i a NUL.
Proof. apply app_nth1. Qed.

Lemma last_nondigit_spec a c d : is_digit c = false -> forallb is_digit d = true ->
  forall n, n <= length d -> last_nondigit (a ++ c :: d) (length a + n) = length a.
Proof.
  intros Hc Hd. induction n as [|n IH]; intro Hn.
  - rewrite Nat.add_0_r. destruct (length a) as [|m] eqn:E; [reflexivity|]. cbn [last_nondigit].
    rewrite app_nth2 by lia. rewrite E, Nat.sub_diag. cbn [nth]. rewrite Hc. reflexivity.
  - replace (length a + S n) with (S (length a + n)) by lia. cbn [last_nondigit].
    rewrite app_nth2 by lia. replace (S (length a + n) - length a) with (S n) by lia. cbn [nth].
    assert (E : is_digit (nth n d NUL) = true).
    { rewrite forallb_forall in Hd. apply Hd, nth_In. lia. }
    rewrite E. apply IH. lia.
Qed.

Lemma last_nondigit_all d : forallb is_digit d = true -> forall n, n < length d -> last_nondigit d n = 0.
Proof.
  intros Hd. induction n as [|n IH]; intro Hn; [reflexivity|]. cbn [last_nondigit].
  assert (E : is_digit (nth (S n) d NUL) = true) by (rewrite forallb_forall in Hd; apply Hd, nth_In; lia).
  rewrite E. apply IH. lia.
Qed.

Lemma digits_value_decimal s : forallb is_digit s = true -> digits_value s = Z.of_N (decimal s).
Proof.
  unfold digits_value, decimal. intro H. 
  assert (G : forall a b, a = Z.of_N b -> fold_left (fun a c => a * 10 + (Z.of_N (nb c) - 48))%Z s a = Z.of_N (decimal_from b s)).
  { induction s as [|c s IH]; intros a b ->; [reflexivity|]. cbn in *. apply andb_true_iff in H. destruct H as [H1 H2].
    apply IH; [assumption|]. unfold is_digit, in_range in H1. apply andb_true_iff in H1. destruct H1 as [H1 _].
    apply N.leb_le in H1. change (nb "0"%char) with 48%N in H1. lia. }
  apply G. reflexivity.
Qed.

Definition cut (size : option Z) (v : bytes) : bytes :=
  match size with Some n => if (0 <? n)%Z then strndupZ v n else v | None => v end.
Definition cutN (size : option N) (v : bytes) : bytes :=
  match size with Some n => if N.eqb n 0 then v else first_bytes n v | None => v end.
Lemma cut_cutN n v : cut (Some (Z.of_N n)) v = cutN (Some n) v.
Proof.
  unfold cut, cutN, strndupZ, first_bytes.
  destruct (N.eqb_spec n 0) as [->|H]; [reflexivity|].
  destruct (Z.ltb_spec 0 (Z.of_N n)); [|lia].
  destruct (N.leb_spec (N.of_nat (length v)) n), (Z.leb_spec (Z.of_nat (length v)) (Z.of_N n)); try lia; [reflexivity|].
  f_equal. lia.
Qed.

Lemma split_size_suffix name : name <> [] -> split_size name =
  match size_suffix name with
  | Some (b, d) => (b, Some (Z.of_N (N.min (decimal d) (2 ^ 63 - 1))))
  | None => (name, None)
  end.
Proof.
  intro Hn. unfold split_size, size_suffix. pose proof (span_digits_spec (rev name)) as H.
  destruct (span_digits (rev name)) as [d x]. destruct H as (E & Hd & Hx).
  assert (En : name = rev x ++ rev d) by (rewrite <- rev_app_distr, <- E, rev_involutive; reflexivity).
  assert (Hd' : forallb is_digit (rev d) = true).
  { rewrite forallb_forall in *. intros c Hc. apply Hd. apply in_rev. exact Hc. }
  destruct x as [|c x].
  - cbn in En. rewrite En. rewrite last_nondigit_all; auto.
    + assert (Hz : is_digit (nth 0 (rev d) NUL) = true).
      { destruct (rev d) as [|c r]; [congruence|]. cbn in *. apply andb_true_iff in Hd'. apply Hd'. }
      assert (Hc : (nth 0 (rev d) NUL == "_"%char) = false).
      { generalize dependent (nth 0 (rev d) NUL). intros c H.
        pose proof (@forall_bytes (fun c => implb (is_digit c) (negb (c == "_"%char))) eq_refl c) as G. cbv beta in G.
        rewrite H in G. destruct (c == "_"%char); [discriminate|reflexivity]. }
      rewrite Hc. reflexivity.
    + destruct (rev d); [congruence|cbn; lia].
  - cbn [rev] in En. rewrite <- app_assoc in En. cbn [app] in En.
    assert (Hi : last_nondigit name (length name - 1) = length (rev x)).
    { rewrite En, app_length. cbn [length]. replace (length (rev x) + S (length (rev d)) - 1) with (length (rev x) + length (rev d)) by lia.
      apply last_nondigit_spec; auto. }
    rewrite Hi. rewrite En at 1 2. rewrite app_nth2, Nat.sub_diag by lia. cbn [nth].
    rewrite app_length. cbn [length]. destruct (c == "_"%char) eqn:Ec; [|reflexivity]. cbn [andb].
    destruct d as [|d0 d].
    + cbn [rev length beq negb]. destruct (Nat.ltb_spec (length (rev x) + 1) (length (rev x) + 1)); [lia|reflexivity].
    + cbn [beq negb]. destruct (Nat.ltb_spec (length (rev x) + 1) (length (rev x) + S (length (rev (d0 :: d))))).
      2:{ cbn [rev] in *. rewrite app_length in *. cbn in *. lia. }
      rewrite En. f_equal.
      * rewrite firstn_app, Nat.sub_diag, firstn_all. cbn. apply app_nil_r.
      * do 1 f_equal. rewrite Nat.add_1_r. change (rev x ++ c :: rev (d0 :: d)) with (rev x ++ [c] ++ rev (d0 :: d)).
        rewrite app_assoc, skipn_app.
        rewrite skipn_all2 by (rewrite app_length; cbn; lia). rewrite app_length. cbn [length app].
        replace (S (length (rev x)) - (length (rev x) + 1)) with 0 by lia. rewrite skipn_O.
        unfold strtol10. rewrite digits_value_decimal by assumption. unfold LONG_MAX. rewrite N2Z.inj_min. reflexivity.
Qed.

Lemma formatted_suffix_ends v : formatted_suffix v =
  if ends_with v (B "_FORMATTED") then Some (firstn (length v - 10) v) else None.
Proof.
  unfold formatted_suffix, ends_with.
  assert (L : length (B "_FORMATTED") = 10) by reflexivity. rewrite L.
  rewrite firstn_rev, skipn_rev, !rev_involutive.
  destruct (Nat.ltb_spec (length v) 10) as [H|H]; [|reflexivity].
  destruct (beq (skipn (length v - 10) v) (B "_FORMATTED")) eqn:E; [|reflexivity].
  apply beq_eq in E. apply (f_equal (@length _)) in E. rewrite skipn_length, L in E. lia.
Qed.

Lemma shout_value c : value_char c = shout c.
Proof.
  apply eqb_true. pose proof (@forall_bytes (fun c => value_char c == shout c) eq_refl c) as H. exact H.
Qed.
Lemma foreach_value_shout l w : foreach_value_variable l w = map shout l ++ B "__" ++ map shout w.
Proof.
  unfold foreach_value_variable. rewrite !map_app. rewrite (map_ext _ _ shout_value l), (map_ext _ _ shout_value w). reflexivity.
Qed.

Section Res.
Variable convert : bytes -> bytes -> option bytes.
Variable funcs : list (bytes * (vars -> vars)).

Theorem format_variable_resolve name g l lp : name <> [] ->
  format_variable convert funcs name g l (option_map fst lp) (option_map snd lp) =
  Ok (resolve convert (funcvars_eval funcs) name g l lp).
Proof.
  intro Hn. unfold format_variable, resolve. rewrite !get_variable_lookup.
  destruct (lookup name g l) as [v|]; [reflexivity|].
  destruct (beq name (B "FOREACH_ITEM")) eqn:E1.
  { destruct lp as [[a w]|]; cbn [orb option_map snd]; rewrite ?E1; reflexivity. }
  destruct (beq name (B "FOREACH_VALUE")) eqn:E2.
  { destruct lp as [[a w]|]; cbn [orb option_map fst snd]; rewrite ?E1, ?E2; [|reflexivity].
    rewrite get_variable_lookup, foreach_value_shout. reflexivity. }
  cbn [orb]. destruct (Nat.eqb_spec (length name) 0) as [E|E]; [destruct name; [congruence|discriminate]|].
  rewrite (split_size_suffix Hn).
  assert (Hgo : forall base (sz : option N), 
    (let fmt := ends_with base (B "_FORMATTED") in
     let var := if fmt then firstn (length base - 10) base else base in
     let '(value, global) :=
       match beq var (B "FOREACH_ITEM"), option_map snd lp with
       | true, Some i => (Some i, g)
       | _, _ =>
           match beq var (B "FOREACH_VALUE"), option_map fst lp, option_map snd lp with
           | true, Some n, Some i => (get_variable (foreach_value_variable n i) g l, g)
           | _, _, _ => let g0 := funcvars_eval funcs g var in (get_variable var g0 l, g0)
           end
       end in
     match value with
     | None => Ok (None, global)
     | Some v =>
         let rv := if fmt then if starts_with name (B "DATE_") then format_date convert v global l else v else v in
         Ok (Some (cut (option_map Z.of_N sz) rv), global)
     end) =
    (let '(base, format) := match formatted_suffix base with Some b => (b, true) | None => (base, false) end in
     let '(value, global) :=
       match match lp with
             | Some (l0, w) =>
                 if beq base (B "FOREACH_ITEM") then Some (Some w)
                 else if beq base (B "FOREACH_VALUE") then Some (lookup (map shout l0 ++ B "__" ++ map shout w) g l) else None
             | None => None
             end with
       | Some v => (v, g)
       | None => let g0 := funcvars_eval funcs g base in (lookup base g0 l, g0)
       end in
     Ok (option_map (fun v =>
           let v0 := if format && starts_with name (B "DATE_") then
                       match lookup (B "DATE_FORMAT") global l with
                       | Some f => match convert v f with Some r => r | None => v end
                       | None => v
                       end
                     else v in
           cutN sz v0) value, global))).
  { intros base sz. rewrite formatted_suffix_ends. cbv zeta.
    assert (Hfmt : forall fmt var,
      (let '(value, global) :=
        match beq var (B "FOREACH_ITEM"), option_map snd lp with
        | true, Some i => (Some i, g)
        | _, _ =>
           match beq var (B "FOREACH_VALUE"), option_map fst lp, option_map snd lp with
           | true, Some n, Some i => (get_variable (foreach_value_variable n i) g l, g)
           | _, _, _ => (get_variable var (funcvars_eval funcs g var) l, funcvars_eval funcs g var)
           end
        end in
        match value with
        | None => Ok (None, global)
        | Some v =>
           Ok (Some (cut (option_map Z.of_N sz) (if fmt : bool then if starts_with name (B "DATE_") then format_date convert v global l else v else v)), global)
        end) =
      (let '(value, global) :=
       match match lp with
             | Some (l0, w) =>
                 if beq var (B "FOREACH_ITEM") then Some (Some w)
                 else if beq var (B "FOREACH_VALUE") then Some (lookup (map shout l0 ++ B "__" ++ map shout w) g l) else None
             | None => None
             end with
       | Some v => (v, g)
       | None => (lookup var (funcvars_eval funcs g var) l, funcvars_eval funcs g var)
       end in
       Ok (option_map (fun v => cutN sz
             (if fmt && starts_with name (B "DATE_") then
                       match lookup (B "DATE_FORMAT") global l with
                       | Some f => match convert v f with Some r => r | None => v end
                       | None => v
                       end
                     else v)) value, global))).
    { intros fmt var.
      assert (Hv : forall value global,
        match value with
        | None => Ok (None, global)
        | Some v =>
           Ok (Some (cut (option_map Z.of_N sz) (if fmt : bool then if starts_with name (B "DATE_") then format_date convert v global l else v else v)), global)
        end = Ok (option_map (fun v => cutN sz
             (if fmt && starts_with name (B "DATE_") then
                       match lookup (B "DATE_FORMAT") global l with
                       | Some f => match convert v f with Some r => r | None => v end
                       | None => v
                       end
                     else v)) value, global)).
      { intros [v|] gl; [|reflexivity]. cbn [option_map]. do 3 f_equal.
        assert (Hc : forall x, cut (option_map Z.of_N sz) x = cutN sz x) by (intro x; destruct sz; [apply cut_cutN|reflexivity]).
        rewrite Hc. f_equal. unfold format_date. rewrite get_variable_lookup. destruct fmt; [|reflexivity]. reflexivity. }
      destruct lp as [[a w]|]; cbn [option_map fst snd].
      - destruct (beq var (B "FOREACH_ITEM")); [exact (Hv (Some w) g)|]. destruct (beq var (B "FOREACH_VALUE")).
        + rewrite get_variable_lookup, foreach_value_shout. exact (Hv _ g).
        + rewrite get_variable_lookup. exact (Hv _ (funcvars_eval funcs g var)).
      - rewrite get_variable_lookup.
        destruct (beq var (B "FOREACH_ITEM")), (beq var (B "FOREACH_VALUE")); exact (Hv _ (funcvars_eval funcs g var)). }
    destruct (ends_with base (B "_FORMATTED")); [exact (Hfmt true _)|exact (Hfmt false base)]. }
  destruct (size_suffix name) as [[b d]|].
  - etransitivity; [exact (Hgo b (Some (N.min (decimal d) (2 ^ 63 - 1))))|].
    destruct (formatted_suffix b) as [b'|];
    cbv beta iota zeta; match goal with |- match ?X with (_, _) => Ok _ end = Ok (match ?Y with (_, _) => _ end) => change Y with X; destruct X end; reflexivity.
  - etransitivity; [exact (Hgo name None)|].
    destruct (formatted_suffix name) as [b'|];
    cbv beta iota zeta; match goal with |- match ?X with (_, _) => Ok _ end = Ok (match ?Y with (_, _) => _ end) => change Y with X; destruct X end; reflexivity.
Qed.
End Res.
