(* What the user is told about an error. *)
From Verif Require Import Base Utils UtilsProofs ErrorPos ErrorPosProofs Content BlockSpec BlockOut ErrPrint ErrPrintSpec.
#[local] Arguments B : simpl never.

(* the words for the kinds of errors, and how bad they are *)
Definition words (k : ekind) : bytes * bytes :=
  match k with
  | EConfigParser => (B "error", B "config-parser") | EFile => (B "error", B "file")
  | ESource => (B "error", B "source") | ETemplate => (B "error", B "template") | ELoader => (B "error", B "loader")
  | EDatetime => (B "warning", B "datetime")
  | ESettings => (B "error", B "settings") | EExec => (B "error", B "exec") | EAtom => (B "error", B "atom")
  | EUtils => (B "error", B "utils")
  end.

Lemma cut_at c a b : ~ In c a -> cut c (a ++ c :: b) = (a, b).
Proof.
  induction a as [|x a IH]; cbn [app cut]; intro H.
  - destruct (c == c) eqn:E; [reflexivity|]. apply eqb_false in E. congruence.
  - destruct (x == c) eqn:E; [apply eqb_true in E; subst; exfalso; apply H; left; reflexivity|].
    rewrite IH; [reflexivity|]. intro I. apply H. right. exact I.
Qed.
Lemma field_at a b : ~ In ":"%char a -> field (a ++ B ": " ++ b) = (a, b).
Proof.
  intro H. unfold field. change (B ": " ++ b) with (":"%char :: " "%char :: b). rewrite cut_at by exact H. reflexivity.
Qed.
Lemma number_at : forall d n s, Forall (fun c => is_digit c = true) d -> is_digit (hd NUL s) = false ->
  number_from n (d ++ s) = (fold_left (fun acc c => acc * 10 + (N.to_nat (nb c) - 48)) d n, s).
Proof.
  induction d as [|c d IH]; intros n s H E; cbn [app fold_left].
  - destruct s as [|x s]; [reflexivity|]. cbn [number_from hd] in *. rewrite E. reflexivity.
  - inversion H; subst. cbn [number_from]. rewrite H2. apply IH; assumption.
Qed.
Lemma number_dec n s : is_digit (hd NUL s) = false -> number_from 0 (dec (N.of_nat n) ++ s) = (n, s).
Proof.
  intro E. destruct (dec_decimal n) as (_ & D & V). rewrite number_at by assumption. rewrite V. reflexivity.
Qed.
Lemma label_words k : kind_label k = fst (words k) ++ B ": " ++ snd (words k) ++ B ": ".
Proof. destruct k; reflexivity. Qed.
Lemma words_plain k : ~ In ":"%char (fst (words k)) /\ ~ In ":"%char (snd (words k)).
Proof. destruct k; split; cbn; intro H; repeat (destruct H as [H|H]; [discriminate|]); exact H. Qed.

(* ---------- C102 ---------- *)
(* the program, how bad it is, the component and the text can be read off, for every text *)
Theorem C102_report : forall (program : bytes) (k : ekind) (msg : bytes), ~ In ":"%char program ->
  report (error_print (Some (k, msg)) (Some program)) = (program, fst (words k), snd (words k), msg).
Proof.
  intros p k msg H. unfold report, error_print. destruct (words_plain k) as (W1 & W2).
  rewrite label_words, <- !app_assoc, (field_at _ H), (field_at _ W1), (field_at _ W2), removelast_last. reflexivity.
Qed.
Print Assumptions C102_report.

(* different kinds have different words; only a date that cannot be formatted is a warning *)
Theorem C102_kinds : forall k1 k2, (snd (words k1) = snd (words k2) -> k1 = k2) /\
  (fst (words k1) = B "warning" <-> k1 = EDatetime) /\ (fst (words k1) = B "error" <-> k1 <> EDatetime).
Proof.
  intros k1 k2. split; [|split]; [destruct k1, k2; intro H; (reflexivity || discriminate H)| |];
    destruct k1; split; intro H; (reflexivity || discriminate H || congruence).
Qed.
Print Assumptions C102_kinds.

(* an error at a byte of a line that is not empty, line endings LF, CR or CR LF: the user reads the
   message on the first line, and on the second the line, the position, and the line itself *)
Theorem C102_place : forall (program : bytes) (k : ekind) (msg : bytes) (ls : list (bytes * bytes)) (a b rest : bytes),
  ~ In ":"%char program -> ~ In LF msg ->
  let src := text ls (a ++ b ++ rest) in
  lines_ok ls (a ++ b ++ rest) -> no_lfcr src ->
  no_newline a -> no_newline b -> a ++ b <> [] ->
  (rest = [] \/ exists c r, rest = c :: r /\ (c = LF \/ c = CR)) ->
  no_nul (a ++ b) ->
  exists t, report (error_print (Some (k, error_msg msg src (lines_len ls + length a))) (Some program))
      = (program, fst (words k), snd (words k), t) /\
    fst (cut LF t) = msg /\
    place t = (length ls + 1, length a + 1, a ++ b).
Proof.
  intros p k msg ls a b rest Hp Hm src H1 H2 H3 H4 H5 H6 H7. eexists. split; [apply C102_report; exact Hp|].
  unfold error_msg, src. rewrite error_near_spec by assumption.
  set (n1 := length ls + 1). set (n2 := length a + 1). change ([LF] ++ ?x) with (LF :: x). rewrite (cut_at _ Hm).
  split; [reflexivity|]. unfold place. rewrite (cut_at _ Hm).
  change (skipn 25 (B "Error occurred near line " ++ ?x)) with x.
  rewrite number_dec by reflexivity. change (skipn 11 (B ", position " ++ ?x)) with x.
  rewrite number_dec by reflexivity. reflexivity.
Qed.
Print Assumptions C102_place.

Example C102_example :
  error_print (Some (ETemplate, error_msg (B "Invalid statement.") (B "<a>" ++ [LF] ++ B "{% bola %}" ++ [LF]) 7)) (Some (B "blogc"))
  = B "blogc: error: template: Invalid statement." ++ [LF] ++ B "Error occurred near line 2, position 4: {% bola %}" ++ [LF].
Proof. vm_compute. reflexivity. Qed.
Example C102_example_read :
  report (B "blogc: error: template: Invalid statement." ++ [LF] ++ B "Error occurred near line 2, position 4: {% bola %}" ++ [LF])
  = (B "blogc", B "error", B "template", B "Invalid statement." ++ [LF] ++ B "Error occurred near line 2, position 4: {% bola %}") /\
  place (B "Invalid statement." ++ [LF] ++ B "Error occurred near line 2, position 4: {% bola %}") = (2, 4, B "{% bola %}").
Proof. split; vm_compute; reflexivity. Qed.
Example C102_example_hyps :
  lines_ok [(B "<a>", [LF])] (B "{% " ++ B "bola %}" ++ [LF]) /\ text [(B "<a>", [LF])] (B "{% " ++ B "bola %}" ++ [LF]) = B "<a>" ++ [LF] ++ B "{% bola %}" ++ [LF].
Proof.
  split; [|reflexivity]. vm_compute. repeat split; try (intro H; repeat destruct H as [H|H]; (discriminate || destruct H));
  try constructor; discriminate.
Qed.
