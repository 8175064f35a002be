From Verif Require Import Base Utils ErrorPos.

(* ---- specification: a text as a list of terminated lines ---- *)
Definition no_newline (l : bytes) : Prop := ~ In LF l /\ ~ In CR l.
Inductive terminator : bytes -> Prop :=
| TLf : terminator [LF]
| TCr : terminator [CR]
| TCrLf : terminator [CR; LF].

Definition starts_byte (c : ascii) (x : bytes) : Prop := exists r, x = c :: r.

(* the terminated lines [ls] followed by [tail]: text *)
Fixpoint text (ls : list (bytes * bytes)) (tail : bytes) : bytes :=
  match ls with [] => tail | (l, t) :: r => l ++ t ++ text r tail end.

(* [ls] is a reading of the text as LF, CR and CRLF terminated lines: a CR
   terminator is not the first half of a CRLF. *)
Fixpoint lines_ok (ls : list (bytes * bytes)) (tail : bytes) : Prop :=
  match ls with
  | [] => True
  | (l, t) :: r => no_newline l /\ terminator t
      /\ (t = [CR] -> ~ starts_byte LF (text r tail)) /\ lines_ok r tail
  end.

(* no LF directly followed by CR: the code takes such a pair for one terminator *)
Definition no_lfcr (x : bytes) : Prop := forall p q, x <> p ++ LF :: CR :: q.

(* ---- proofs ---- *)
Lemma is_nl_false c : is_nl c = false <-> c <> LF /\ c <> CR.
Proof. unfold is_nl. rewrite orb_false_iff, !eqb_false. reflexivity. Qed.

Lemma no_newline_cons c l : no_newline (c :: l) <-> is_nl c = false /\ no_newline l.
Proof. unfold no_newline. rewrite is_nl_false. simpl. intuition congruence. Qed.

Lemma loop_line n cur a : no_newline a -> forall tail i lineno ls pos,
  i + length a <= cur ->
  err_loop (a ++ tail) i n cur lineno ls pos
  = err_loop tail (i + length a) n cur lineno ls (pos + length a).
Proof.
  induction a as [|c a IH]; intros Ha tail i lineno ls pos Hi.
  - simpl. rewrite !Nat.add_0_r. reflexivity.
  - apply no_newline_cons in Ha. destruct Ha as [Hc Ha]. simpl length in Hi.
    cbn [app err_loop]. destruct (Nat.ltb_spec i cur) as [_|H]; [|lia].
    pose proof Hc as Hc2. apply is_nl_false in Hc2. destruct Hc2 as [H1 H2].
    apply eqb_false in H1, H2. rewrite H1, H2, Hc. cbn [andb orb].
    assert (E : err_loop (a ++ tail) (i + 1) n cur lineno ls (pos + 1)
                = err_loop tail (i + length (c :: a)) n cur lineno ls (pos + length (c :: a))).
    { rewrite IH by (assumption || lia). f_equal; simpl; lia. }
    destruct (a ++ tail); exact E.
Qed.

Lemma loop_term n cur t : terminator t -> forall tail i lineno ls pos,
  i + length t <= cur ->
  (t = [CR] -> ~ starts_byte LF tail) -> (t = [LF] -> ~ starts_byte CR tail) ->
  err_loop (t ++ tail) i n cur lineno ls pos
  = err_loop tail (i + length t) n cur (lineno + 1)
      (if Nat.ltb (i + length t) n then i + length t else ls) 1.
Proof.
  intros Ht tail i lineno ls pos Hi Hcr Hlf.
  destruct Ht; simpl length in *; cbn [app err_loop];
    (destruct (Nat.ltb_spec i cur) as [_|H]; [|lia]).
  - destruct tail as [|d tail]; [reflexivity|].
    assert (Hd : (d == CR) = false).
    { apply eqb_false. intros ->. apply (Hlf eq_refl). exists tail. reflexivity. }
    rewrite Hd. reflexivity.
  - destruct tail as [|d tail]; [reflexivity|].
    assert (Hd : (d == LF) = false).
    { apply eqb_false. intros ->. apply (Hcr eq_refl). exists tail. reflexivity. }
    rewrite Hd. reflexivity.
  - reflexivity.
Qed.

Lemma no_lfcr_app x y : no_lfcr (x ++ y) -> no_lfcr y.
Proof. intros H p q E. apply (H (x ++ p) q). rewrite E, <- app_assoc. reflexivity. Qed.

Lemma text_length ls tail : length (text ls tail) =
  list_sum (map (fun lt => length (fst lt) + length (snd lt)) ls) + length tail.
Proof.
  induction ls as [|[l t] ls IH]; simpl; [reflexivity|]. rewrite !app_length, IH. lia.
Qed.

(* offset of the text after the terminated lines *)
Definition lines_len (ls : list (bytes * bytes)) : nat := length (text ls []).
Lemma lines_len_cons l t ls : lines_len ((l, t) :: ls) = length l + length t + lines_len ls.
Proof. unfold lines_len. simpl. rewrite !app_length. lia. Qed.
Lemma text_app ls tail : text ls tail = text ls [] ++ tail.
Proof. induction ls as [|[l t] ls IH]; simpl; [reflexivity|]. rewrite IH, <- !app_assoc. reflexivity. Qed.

Lemma loop_lines n cur tail : forall ls i lineno start pos,
  lines_ok ls tail -> no_lfcr (text ls tail) ->
  i + lines_len ls <= cur -> i + lines_len ls + length tail = n -> tail <> [] ->
  err_loop (text ls tail) i n cur lineno start pos
  = err_loop tail (i + lines_len ls) n cur (lineno + length ls)
      (match ls with [] => start | _ => i + lines_len ls end)
      (match ls with [] => pos | _ => 1 end).
Proof.
  induction ls as [|[l t] ls IH]; intros i lineno start pos Hok Hno Hi Hn Hne.
  - simpl. unfold lines_len. simpl. rewrite !Nat.add_0_r. reflexivity.
  - destruct Hok as (Hl & Ht & Hcr & Hok). rewrite lines_len_cons in *.
    assert (Htl : length tail <> 0) by (destruct tail; [congruence|discriminate]).
    cbn [text]. cbn [text] in Hno.
    rewrite loop_line by (assumption || lia).
    rewrite loop_term; try assumption; try lia.
    + assert (Hlt : Nat.ltb (i + length l + length t) n = true) by (apply Nat.ltb_lt; lia).
      rewrite Hlt. rewrite IH; try assumption; try lia.
      * replace (i + length l + length t + lines_len ls) with (i + (length l + length t + lines_len ls)) by lia.
        f_equal; simpl length; try lia.
        -- destruct ls; [|reflexivity]. unfold lines_len. simpl. lia.
        -- destruct ls; reflexivity.
      * rewrite app_assoc in Hno. apply no_lfcr_app in Hno. exact Hno.
    + intros E [r Hr]. subst t. apply (Hno l r). rewrite Hr. reflexivity.
Qed.

Lemma loop_rest n cur b : no_newline b -> forall rest i lineno ls pos,
  cur <= i -> (rest = [] \/ exists c r, rest = c :: r /\ is_nl c = true) ->
  err_loop (b ++ rest) i n cur lineno ls pos
  = ES lineno ls (match rest with [] => 0 | _ => i + length b end) pos.
Proof.
  induction b as [|c b IH]; intros Hb rest i lineno ls pos Hi Hr.
  - simpl. rewrite Nat.add_0_r. destruct Hr as [->|(c & r & -> & Hc)]; [reflexivity|].
    cbn [err_loop]. destruct (Nat.ltb_spec i cur) as [H|_]; [lia|]. rewrite Hc. reflexivity.
  - apply no_newline_cons in Hb. destruct Hb as [Hc Hb]. cbn [app err_loop].
    destruct (Nat.ltb_spec i cur) as [H|_]; [lia|]. rewrite Hc.
    rewrite IH by (assumption || lia). f_equal. destruct rest; [reflexivity|]. simpl. lia.
Qed.

(* the offending offset is byte |a| of the line a ++ b, which follows the lines ls *)
Lemma error_near_spec ls a b rest :
  let src := text ls (a ++ b ++ rest) in
  lines_ok ls (a ++ b ++ rest) -> no_lfcr src ->
  no_newline a -> no_newline b -> a ++ b <> [] ->
  (rest = [] \/ exists c r, rest = c :: r /\ (c = LF \/ c = CR)) ->
  no_nul (a ++ b) ->
  error_near src (lines_len ls + length a) = Some (length ls + 1, length a + 1, a ++ b).
Proof.
  cbv zeta. intros Hok Hno Ha Hb Hab Hr Hnul.
  assert (Hr' : rest = [] \/ exists c r, rest = c :: r /\ is_nl c = true).
  { destruct Hr as [Hr|(c & r & E & Hc)]; [left; exact Hr|right].
    exists c, r. split; [exact E|]. unfold is_nl. destruct Hc; subst; reflexivity. }
  assert (Htl : a ++ b ++ rest <> []).
  { intro E. apply Hab. rewrite app_assoc in E. apply app_eq_nil in E. tauto. }
  assert (Hlen : length (text ls (a ++ b ++ rest)) = lines_len ls + length (a ++ b ++ rest)).
  { rewrite text_app, app_length. reflexivity. }
  unfold error_near.
  rewrite loop_lines; try assumption; try lia.
  rewrite loop_line by (assumption || lia).
  rewrite loop_rest; try assumption; [|lia].
  cbn [es_lineno es_linestart es_lineend es_pos].
  set (start := match ls with [] => 0 | _ => 0 + lines_len ls end).
  assert (Hstart : start = lines_len ls).
  { unfold start. destruct ls; reflexivity. }
  rewrite Hstart. rewrite Hlen, !app_length.
  assert (Hab' : length a + length b <> 0).
  { intro E. apply Hab. apply length_zero_iff_nil. rewrite app_length. exact E. }
  set (le := if (Nat.leb _ (lines_len ls) && _)%bool then _ else _).
  assert (Hle : le = lines_len ls + (length a + length b)).
  { unfold le. destruct rest as [|c r].
    - simpl. destruct (Nat.leb_spec (lines_len ls) (lines_len ls + (length a + (length b + 0)))); lia.
    - destruct (Nat.leb_spec (0 + lines_len ls + length a + length b) (lines_len ls)); [lia|].
      simpl. lia. }
  rewrite Hle.
  replace (lines_len ls + (length a + length b) - lines_len ls) with (length (a ++ b))
    by (rewrite app_length; lia).
  assert (Hline : strndup (skipn (lines_len ls) (text ls (a ++ b ++ rest))) (length (a ++ b)) = a ++ b).
  { rewrite (text_app ls). unfold lines_len. rewrite skipn_app, skipn_all, Nat.sub_diag.
    cbn [app skipn]. unfold strndup. rewrite app_assoc, firstn_app, Nat.sub_diag, firstn_all.
    cbn [firstn]. rewrite app_nil_r, cstr_id by exact Hnul. reflexivity. }
  rewrite Hline.
  destruct (a ++ b) eqn:E; [congruence|].
  assert (E1 : 1 + length ls = length ls + 1) by lia. rewrite E1.
  assert (E2 : match ls with [] => 1 | _ => 1 end + length a = length a + 1)
    by (destruct ls; lia).
  rewrite E2. reflexivity.
Qed.

(* the line number and column alone, also on an empty line *)
Lemma err_pos_spec ls a b rest :
  let src := text ls (a ++ b ++ rest) in
  lines_ok ls (a ++ b ++ rest) -> no_lfcr src ->
  no_newline a -> no_newline b -> a ++ b ++ rest <> [] ->
  (rest = [] \/ exists c r, rest = c :: r /\ (c = LF \/ c = CR)) ->
  let st := err_loop src 0 (length src) (lines_len ls + length a) 1 0 1 in
  es_lineno st = length ls + 1 /\ es_pos st = length a + 1 /\ es_linestart st = lines_len ls.
Proof.
  cbv zeta. intros Hok Hno Ha Hb Htl Hr.
  assert (Hr' : rest = [] \/ exists c r, rest = c :: r /\ is_nl c = true).
  { destruct Hr as [Hr|(c & r & E & Hc)]; [left; exact Hr|right].
    exists c, r. split; [exact E|]. unfold is_nl. destruct Hc; subst; reflexivity. }
  assert (Hlen : length (text ls (a ++ b ++ rest)) = lines_len ls + length (a ++ b ++ rest)).
  { rewrite text_app, app_length. reflexivity. }
  rewrite loop_lines; try assumption; try lia.
  rewrite loop_line by (assumption || lia).
  rewrite loop_rest; try assumption; [|lia].
  cbn [es_lineno es_linestart es_lineend es_pos].
  destruct ls; simpl; repeat split; lia.
Qed.
