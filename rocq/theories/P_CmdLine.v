(* C105: the command line of blogc. *)
From Verif Require Import Base Utils UtilsProofs Utf8 Utf8Proofs Trie TrieProofs SettingsSpec Main P_Main CmdLineSpec.
#[local] Open Scope nat_scope.
#[local] Arguments B : simpl never.

(* the words of the manual; a value joined to its option is not empty *)
Definition word_ok (w : word) : Prop :=
  match w with
  | WFlag c => In c [ "d"; "i"; "l" ]%char
  | WValue c v j => In c [ "e"; "t"; "o"; "p" ]%char /\ (j = true -> v <> [])
  | WDefine k v _ => valid_name k /\ utf8 (k ++ B "=" ++ v)
  | WSource f => hd NUL f <> "-"%char
  end.

(* the options after a word *)
Definition step (o : opts) (w : word) : opts :=
  let lst c old := match value_of c w with Some v => Some v | None => old end in
  Opts (o_debug o || flag "d"%char [w]) (o_stdin o || flag "i"%char [w]) (o_listing o || flag "l"%char [w])
    (lst "t"%char (o_template o)) (lst "o"%char (o_output o)) (lst "p"%char (o_print o))
    (o_sources o ++ sources [w]) (o_entries o ++ entries [w])
    (match w with WDefine k v _ => trie_insert (o_config o) k v | _ => o_config o end).

Lemma define_good k v c : valid_name k -> utf8 (k ++ B "=" ++ v) -> define_var (k ++ B "=" ++ v) c = Ok (inl (trie_insert c k v)).
Proof.
  intros Hk Hu. unfold define_var. apply validate_iff in Hu. rewrite Hu. cbn [rbind negb].
  change (B "=" ++ v) with ("="%char :: v). rewrite split2_has by (apply name_no_eq; left; exact Hk).
  replace (define_key 0 k) with true; [reflexivity|]. symmetry. apply define_key_spec. left. exact Hk.
Qed.

Lemma parse_word w rest o : word_ok w -> parse_args (spelled w ++ rest) o = parse_args rest (step o w).
Proof.
  destruct o as [d i l t u p s e c]. destruct w as [f|f v j|k v j|f]; cbn [word_ok spelled].
  - intro H. repeat (destruct H as [<-|H]); [..|destruct H]; unfold step; cbn; rewrite ?orb_false_r, ?orb_true_r, ?app_nil_r; reflexivity.
  - intros (H & N). unfold opt. destruct j.
    + destruct v as [|x v]; [exfalso; apply N; reflexivity|]. clear N. repeat (destruct H as [<-|H]); [..|destruct H]; unfold step; cbn; rewrite ?orb_false_r, ?app_nil_r; reflexivity.
    + clear N. repeat (destruct H as [<-|H]); [..|destruct H]; unfold step; cbn; rewrite ?orb_false_r, ?app_nil_r; reflexivity.
  - intros (Hk & Hu). set (x := k ++ B "=" ++ v) in *.
    assert (D : set_value "D"%char x (Opts d i l t u p s e c) = Ok (inl (step (Opts d i l t u p s e c) (WDefine k v j)))).
    { unfold step, set_value. cbn -[define_var]. unfold x. rewrite define_good by assumption. cbn. rewrite ?orb_false_r, ?app_nil_r. reflexivity. }
    assert (E : parse_args (B "-D" :: x :: rest) (Opts d i l t u p s e c) = parse_args rest (step (Opts d i l t u p s e c) (WDefine k v j))).
    { change (parse_args (B "-D" :: x :: rest) (Opts d i l t u p s e c)) with
        (do y <- set_value "D"%char x (Opts d i l t u p s e c) ; match y with inl o => parse_args rest o | inr s => Ok (inr s) end).
      rewrite D. reflexivity. }
    unfold opt. destruct j; [|exact E]. rewrite <- E. apply C55_define_partial. unfold x. destruct k; discriminate.
  - intro H. unfold step. cbn [app spelled flag existsb orb sources flat_map entries value_of]. rewrite !orb_false_r, !app_nil_r.
    destruct f as [|x f]; [reflexivity|]. cbn [hd] in H. cbn [parse_args].
    destruct x as [[] [] [] [] [] [] [] []]; try reflexivity. exfalso. apply H. reflexivity.
Qed.
Lemma parse_words : forall ws rest o, Forall word_ok ws -> parse_args (flat_map spelled ws ++ rest) o = parse_args rest (fold_left step ws o).
Proof.
  induction ws as [|w ws IH]; intros rest o H; [reflexivity|]. inversion H; subst. cbn [flat_map fold_left]. rewrite <- app_assoc, parse_word by assumption.
  apply IH. assumption.
Qed.
Lemma flag_cons c w ws : flag c (w :: ws) = flag c [w] || flag c ws.
Proof. unfold flag. cbn [existsb]. rewrite orb_false_r. reflexivity. Qed.
Lemma sources_cons w ws : sources (w :: ws) = sources [w] ++ sources ws.
Proof. unfold sources. cbn [flat_map]. rewrite app_nil_r. reflexivity. Qed.
Lemma entries_cons w ws : entries (w :: ws) = entries [w] ++ entries ws.
Proof. unfold entries. cbn [flat_map]. rewrite app_nil_r. reflexivity. Qed.
Lemma after_words : forall ws o, let o' := fold_left step ws o in
  o_debug o' = o_debug o || flag "d"%char ws /\ o_stdin o' = o_stdin o || flag "i"%char ws /\ o_listing o' = o_listing o || flag "l"%char ws /\
  o_template o' = last_of (value_of "t"%char) ws (o_template o) /\ o_output o' = last_of (value_of "o"%char) ws (o_output o) /\
  o_print o' = last_of (value_of "p"%char) ws (o_print o) /\
  o_sources o' = o_sources o ++ sources ws /\ o_entries o' = o_entries o ++ entries ws.
Proof.
  induction ws as [|w ws IH]; intro o; cbv zeta; [cbn; rewrite !orb_false_r, !app_nil_r; repeat split|].
  cbn [fold_left last_of]. rewrite !(flag_cons _ w ws), (sources_cons w ws), (entries_cons w ws), !orb_assoc, !app_assoc.
  destruct (IH (step o w)) as (I1 & I2 & I3 & I4 & I5 & I6 & I7 & I8). rewrite I1, I2, I3, I4, I5, I6, I7, I8. repeat split.
Qed.
Lemma valid_no_nul k : valid_name k -> no_nul k.
Proof.
  intros (c & r & -> & Hc & Hr) [E|I].
  - subst c. vm_compute in Hc. intuition discriminate.
  - rewrite Forall_forall in Hr. apply Hr in I. vm_compute in I. intuition discriminate.
Qed.
Lemma after_config : forall ws o k, Forall word_ok ws -> no_nul k ->
  trie_lookup (o_config (fold_left step ws o)) k = last_of (defined_as k) ws (trie_lookup (o_config o) k).
Proof.
  induction ws as [|w ws IH]; intros o k H N; [reflexivity|]. inversion H; subst. cbn [fold_left last_of]. rewrite IH by assumption. f_equal.
  destruct w as [f|f v j|x v j|f]; try reflexivity. cbn [step o_config defined_as]. destruct H2 as (Hk & _).
  rewrite trie_lookup_insert by first [exact N | apply valid_no_nul; exact Hk]. destruct (beq x k); reflexivity.
Qed.

(* ---------- C105 ---------- *)
(* a command line of the manual is understood as such: flags count wherever they are, the last of the
   values for -t, -o and -p, all of -e and of the sources in order, and the last definition of a variable *)
Theorem C105_line : forall version ws, Forall word_ok ws ->
  exists o, parse_args (flat_map spelled ws) (no_opts (trie_insert trie_new (B "BLOGC_VERSION") version)) = Ok (inl o) /\
    o_debug o = flag "d"%char ws /\ o_stdin o = flag "i"%char ws /\ o_listing o = flag "l"%char ws /\
    o_template o = last_of (value_of "t"%char) ws None /\ o_output o = last_of (value_of "o"%char) ws None /\
    o_print o = last_of (value_of "p"%char) ws None /\ o_sources o = sources ws /\ o_entries o = entries ws /\
    forall k, no_nul k -> trie_lookup (o_config o) k = last_of (defined_as k) ws (if beq (B "BLOGC_VERSION") k then Some version else None).
Proof.
  intros version ws H. set (o0 := no_opts _). exists (fold_left step ws o0).
  pose proof (parse_words [] o0 H) as E. rewrite app_nil_r in E. rewrite E. split; [reflexivity|].
  destruct (after_words ws o0) as (I1 & I2 & I3 & I4 & I5 & I6 & I7 & I8). repeat (split; [assumption|]).
  intros k N. rewrite (after_config o0 H N). f_equal. unfold o0. cbn [no_opts o_config].
  rewrite trie_lookup_insert; [destruct (beq _ k); [reflexivity|destruct k; reflexivity]| |exact N].
  intro X. repeat (destruct X as [X|X]; [discriminate|]). exact X.
Qed.
Print Assumptions C105_line.

(* -h, -v and an option that does not exist end the run: nothing but a text is written, whatever follows,
   and only the unknown option is an error *)
Theorem C105_stops : forall contents mktime strftime funcs sfuel rfuel mkdir fopen stored version ws c more rest stdin,
  Forall word_ok ws -> ~ In c [ "d"; "i"; "l"; "e"; "t"; "o"; "p"; "D" ]%char ->
  exists e rv, blogc_main contents mktime strftime funcs sfuel rfuel mkdir fopen stored version
      (flat_map spelled ws ++ ("-"%char :: c :: more) :: rest) stdin = Ok ([e], rv) /\
    (c = "h"%char -> e = EHelp /\ rv = 0) /\ (c = "v"%char -> e = EVersion /\ rv = 0) /\
    (c <> "h"%char -> c <> "v"%char -> e = EError /\ rv = 1).
Proof.
  intros contents mktime strftime funcs sfuel rfuel mkdir fopen stored version ws c more rest stdin H N. unfold blogc_main.
  rewrite parse_words by exact H. set (o := fold_left _ _ _).
  assert (P : exists s, parse_args (("-"%char :: c :: more) :: rest) o = Ok (inr s) /\ (c = "h"%char -> s = SHelp) /\ (c = "v"%char -> s = SVersion) /\
    (c <> "h"%char -> c <> "v"%char -> s = SArgument)).
  { cbn [parse_args]. assert (T : takes_value c = false).
    { unfold takes_value. destruct (_ || _) eqn:E; [|reflexivity]. exfalso. apply N. rewrite !orb_true_iff, !eqb_true in E. cbn. intuition. }
    rewrite T. unfold set_flag. destruct (c == "h"%char) eqn:E1; [apply eqb_true in E1; subst; exists SHelp; repeat split; congruence|].
    destruct (c == "v"%char) eqn:E2; [apply eqb_true in E2; subst; exists SVersion; repeat split; congruence|].
    destruct (c == "d"%char) eqn:E3; [apply eqb_true in E3; subst; exfalso; apply N; cbn; auto|].
    destruct (c == "i"%char) eqn:E4; [apply eqb_true in E4; subst; exfalso; apply N; cbn; auto|].
    destruct (c == "l"%char) eqn:E5; [apply eqb_true in E5; subst; exfalso; apply N; cbn; auto|].
    apply eqb_false in E1, E2. exists SArgument. repeat split; congruence. }
  destruct P as (s & P & P1 & P2 & P3). rewrite P. cbn [rbind]. exists (match s with SHelp => EHelp | SVersion => EVersion | _ => EError end), (stop_status s). split; [destruct s; reflexivity|].
  split; [intro X; rewrite (P1 X); split; reflexivity|]. split; [intro X; rewrite (P2 X); split; reflexivity|].
  intros X Y. rewrite (P3 X Y). split; reflexivity.
Qed.
Print Assumptions C105_stops.

(* what follows the letter of a flag is ignored, so a misspelt option is taken for another one: the
   claim that every command line outside the manual is an error is false; and so is a last option
   whose value is missing *)
Theorem C105_refuted : forall o, parse_args [B "--"] o = Ok (inr SArgument) /\ parse_args [B "-list-all"] o = parse_args [B "-l"] o /\
  parse_args [B "-t"] o = Ok (inl o).
Proof. intro o. repeat split. Qed.
Print Assumptions C105_refuted.

Example C105_example_words : Forall word_ok
  [WFlag "l"%char; WValue "t"%char (B "a.tmpl") true; WDefine (B "TITLE") (B "a=b") false; WSource (B "x.txt"); WValue "t"%char (B "b.tmpl") false;
   WValue "e"%char (B "e.txt") false; WSource (B "y.txt")] /\
  flat_map spelled
  [WFlag "l"%char; WValue "t"%char (B "a.tmpl") true; WDefine (B "TITLE") (B "a=b") false; WSource (B "x.txt"); WValue "t"%char (B "b.tmpl") false;
   WValue "e"%char (B "e.txt") false; WSource (B "y.txt")] =
  [B "-l"; B "-ta.tmpl"; B "-D"; B "TITLE=a=b"; B "x.txt"; B "-t"; B "b.tmpl"; B "-e"; B "e.txt"; B "y.txt"].
Proof.
  split; [|reflexivity].
  assert (D : word_ok (WDefine (B "TITLE") (B "a=b") false)).
  { split; [|apply validate_iff; vm_compute; reflexivity]. exists "T"%char, (B "ITLE"). split; [reflexivity|]. split; [vm_compute; tauto|].
    repeat (apply Forall_cons; [vm_compute; tauto|]). apply Forall_nil. }
  repeat (apply Forall_cons; [first [exact D | cbn; tauto | split; [cbn; tauto|discriminate] | discriminate]|]). apply Forall_nil.
Qed.
