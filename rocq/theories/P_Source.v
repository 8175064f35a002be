(* Properties C25 and C26: source files. *)
From Coq Require Import ZArith.
From Verif Require Import Base Utils UtilsProofs Trie TrieProofs Toctree ToctreeSpec Content InlineSpec InlineProofs
  BlockSpec BlockProofs BlockTerm BlockSafe BlockOut DocSpec ListSpec PairSpec ListChk BlockDoc ContentSpec ContentText Source SourceSpec SourceProofs SourceDoc SourceTotal P_Content.
#[local] Arguments B : simpl never.

(* ---- C25 ---- *)

(* A source file with a document as its content: every name assigned in the file
   has the value of its last assignment, without the blanks around it; the
   content, its HTML, the excerpt, the first header, the description and the table
   of contents are those of the document, the last three unless assigned. *)
Theorem C25_source fuel md l g sep x e els : Forall entry_ok l -> gap g -> separator sep -> body x ->
  lines_end x e -> doc e true x els -> length x < fuel -> (Z.of_nat (length x) < 2 ^ 63)%Z -> (- 2 ^ 31 <= md < 2 ^ 31)%Z ->
  (headers els <> [] -> assigned l (B "TOCTREE") = None -> exists d, depth md (assigned l (B "TOCTREE_MAXDEPTH")) d) ->
  exists t, source_parse fuel (entries_src l ++ g ++ sep ++ x) md = Ok (Good t) /\
    trie_lookup t (B "RAW_CONTENT") = Some x /\
    trie_lookup t (B "CONTENT") = Some (doc_html e els) /\
    trie_lookup t (B "EXCERPT") = Some (excerpt_html e els) /\
    trie_lookup t (B "FIRST_HEADER") = or_else (assigned l (B "FIRST_HEADER")) (first_header els) /\
    trie_lookup t (B "DESCRIPTION") = or_else (assigned l (B "DESCRIPTION")) (description els) /\
    (forall v, assigned l (B "TOCTREE") = Some v -> trie_lookup t (B "TOCTREE") = Some v) /\
    (assigned l (B "TOCTREE") = None -> headers els = [] -> trie_lookup t (B "TOCTREE") = None) /\
    (assigned l (B "TOCTREE") = None -> headers els <> [] ->
       exists d, depth md (assigned l (B "TOCTREE_MAXDEPTH")) d /\ table (headers els) d e (trie_lookup t (B "TOCTREE"))) /\
    forall k, no_nul k -> ~ In k set_for_you -> trie_lookup t k = assigned l k.
Proof. exact (@source_doc fuel md l g sep x e els). Qed.
Print Assumptions C25_source.

(* The same for any content the content parser accepts, except for what it makes
   of the content: no assignment is lost or changed. *)
Theorem C25_assignments fuel md l g sep x b r : Forall entry_ok l -> gap g -> separator sep -> body x ->
  content_parse fuel (BO true true true (match assigned l (B "TOCTREE") with None => true | Some _ => false end)) x None = Ok b ->
  source_parse fuel (entries_src l ++ g ++ sep ++ x) md = Ok (Good r) ->
  trie_lookup r (B "RAW_CONTENT") = Some x /\ trie_lookup r (B "CONTENT") = Some (b_rv b) /\
  (forall k v, In k [B "FIRST_HEADER"; B "DESCRIPTION"] -> assigned l k = Some v -> trie_lookup r k = Some v) /\
  forall k, no_nul k -> ~ In k set_for_you -> trie_lookup r k = assigned l k.
Proof.
  intros Hl Hg Hs Hx Hb. rewrite (parse_content md Hl Hg Hs Hx Hb). unfold content_outcome.
  assert (K : forall toc, Ok (Good (done l x b toc)) = Ok (Good r) ->
    trie_lookup r (B "RAW_CONTENT") = Some x /\ trie_lookup r (B "CONTENT") = Some (b_rv b) /\
    (forall k v, In k [B "FIRST_HEADER"; B "DESCRIPTION"] -> assigned l k = Some v -> trie_lookup r k = Some v) /\
    forall k, no_nul k -> ~ In k set_for_you -> trie_lookup r k = assigned l k).
  { intros toc E. injection E as <-. exact (done_frame x b Hl toc). }
  destruct (b_hdrs b); [apply K|].
  destruct (match assigned l (B "TOCTREE_MAXDEPTH") with Some _ => _ | None => _ end); [|discriminate].
  destruct (toctree_render _ _ _); cbn [rbind]; try discriminate. apply K.
Qed.
Print Assumptions C25_assignments.

(* A reserved name is rejected wherever it is assigned, whatever follows. *)
Theorem C25_reserved fuel md l g k r : Forall entry_ok l -> gap g -> In k reserved ->
  exists m, source_parse fuel (entries_src l ++ g ++ k ++ ":"%char :: r) md = Ok (Bad m) /\
    se_msg m = B "'" ++ k ++ B "' variable is forbidden in source files. It will be set for you by the compiler.".
Proof.
  intros Hl Hg Hk. set (src := entries_src l ++ g ++ k ++ ":"%char :: r). unfold source_parse.
  destruct (@loop_entries fuel src md l [] (g ++ k ++ ":"%char :: r) 0 trie_new Hl eq_refl) as (a & E).
  change sst0 with (Sst SStart 0 None (@trie_new bytes)). unfold src at 2. cbn [length app] in E. rewrite E.
  rewrite (loop_gap _ _ _ _ _ _ _ _ Hg). rewrite <- app_length.
  assert (Hn : name k).
  { unfold reserved in Hk. cbn [In] in Hk. repeat (destruct Hk as [<-|Hk];
      [eexists; eexists; split; [reflexivity|]; split; [reflexivity|]; repeat (apply Forall_cons; [vm_compute; tauto|]); apply Forall_nil|]). destruct Hk. }
  rewrite (@loop_name fuel src md (entries_src l ++ g) k r a None _ Hn); [|unfold src; rewrite <- app_assoc; reflexivity].
  destruct (in_dec _ k reserved); [|contradiction]. cbn [rbind]. eexists. split; reflexivity.
Qed.
Print Assumptions C25_reserved.

(* Findings. A content of one byte is dropped without a word. *)
Theorem C25_one_byte_refuted : exists t, source_parse 9 (B "A: b" ++ [LF] ++ B "---" ++ [LF] ++ B "x") (-1) = Ok (Good t) /\
  trie_lookup t (B "CONTENT") = None /\ trie_lookup t (B "RAW_CONTENT") = None.
Proof. eexists. split; [vm_compute; reflexivity|]. split; vm_compute; reflexivity. Qed.
Print Assumptions C25_one_byte_refuted.
(* An assignment that the end of the file cuts off is dropped without a word if
   there was one before it, and so is a missing separator. *)
Theorem C25_unfinished_refuted : exists t, source_parse 9 (B "A: b" ++ [LF] ++ B "C: d") (-1) = Ok (Good t) /\
  trie_lookup t (B "A") = Some (B "b") /\ trie_lookup t (B "C") = None.
Proof. eexists. split; [vm_compute; reflexivity|]. split; vm_compute; reflexivity. Qed.
Print Assumptions C25_unfinished_refuted.
(* The names RAW_CONTENT and EXCERPT can be assigned, to no effect. *)
Theorem C25_overwritten_refuted : exists l x t, Forall entry_ok l /\ assigned l (B "EXCERPT") = Some (B "mine") /\
  source_parse 9 (entries_src l ++ B "---" ++ [LF] ++ x) (-1) = Ok (Good t) /\ trie_lookup t (B "EXCERPT") = Some (B "<p>foo</p>" ++ [LF]).
Proof.
  exists [Entry [] (B "EXCERPT") (B " mine") LF], (B "foo" ++ [LF]). eexists. split; [|split; [vm_compute; reflexivity|split; vm_compute; reflexivity]].
  apply Forall_cons; [|apply Forall_nil]. unfold entry_ok. cbn [e_gap e_key e_text e_nl]. split; [apply Forall_nil|].
  split. { eexists; eexists; split; [reflexivity|]; split; [reflexivity|]; repeat (apply Forall_cons; [cbn; tauto|]); apply Forall_nil. }
  split. { intro H. vm_compute in H. intuition discriminate. }
  split; [|left; reflexivity]. repeat (apply Forall_cons; [split; [intros [X|X]; discriminate X|discriminate]|]). apply Forall_nil.
Qed.
Print Assumptions C25_overwritten_refuted.
(* A depth of 2^32 or more is truncated: 4294967296 means no table at all. *)
Theorem C25_depth_refuted : exists t, 
  source_parse 9 (B "TOCTREE_MAXDEPTH: 4294967296" ++ [LF] ++ B "---" ++ [LF] ++ B "# foo" ++ [LF]) (-1) = Ok (Good t) /\
  trie_lookup t (B "FIRST_HEADER") = Some (B "foo") /\ trie_lookup t (B "TOCTREE") = None.
Proof. eexists. split; [vm_compute; reflexivity|]. split; vm_compute; reflexivity. Qed.
Print Assumptions C25_depth_refuted.

(* ---- C26 ---- *)

(* On any bytes, whatever they are, the parser returns variables or an error that
   points into the file, unless the content parser fails on the content, which follows a
   separator (C29). *)
Theorem C26_total_partial fuel src md : (- 2 ^ 31 <= md < 2 ^ 31)%Z -> (Z.of_nat (length src) < 2 ^ 63)%Z ->
  (exists r, source_parse fuel src md = Ok r /\ forall e n, r = Bad e -> se_at e = Some n -> n <= length src) \/
  (exists p m q o, src = p ++ m ++ q /\ separator m /\ (forall c r, q = c :: r -> ~ newline_byte c) /\
    forall b, content_parse fuel o (cstr q) None <> Ok b).
Proof.
  intros Hmd Hlen. pose proof (@source_total fuel src md Hmd Hlen) as H.
  destruct (source_parse fuel src md) as [[t|e]| |].
  - left. eexists. split; [reflexivity|]. discriminate.
  - left. eexists. split; [reflexivity|]. intros e' n E. injection E as <-. apply H.
  - right. destruct H as (p & q & o & H1 & (x & m & -> & H2) & Hq & H3). exists x, m, q, o. split; [rewrite H1; symmetry; apply app_assoc|]. split; [exact H2|]. split; [exact Hq|]. intros b E. rewrite E in H3. exact H3.
  - right. destruct H as (p & q & o & H1 & (x & m & -> & H2) & Hq & H3). exists x, m, q, o. split; [rewrite H1; symmetry; apply app_assoc|]. split; [exact H2|]. split; [exact Hq|]. intros b E. rewrite E in H3. exact H3.
Qed.
Print Assumptions C26_total_partial.
(* Always a result for files without NUL, with one newline byte, without lists and
   without a backslash at the end of a line. *)
Theorem C26_result_partial src md : (- 2 ^ 31 <= md < 2 ^ 31)%Z -> (Z.of_nat (length src) < 2 ^ 63)%Z ->
  no_nul src -> one_newline_byte src -> no_trailing_backslash src -> no_list_lines src ->
  exists r, source_parse (S (length src)) src md = Ok r /\ forall e n, r = Bad e -> se_at e = Some n -> n <= length src.
Proof.
  intros Hmd Hlen H1 H2 H3 H4. destruct (@C26_total_partial (S (length src)) src md Hmd Hlen) as [H|(p0 & m & q & o & Es & Hm & _ & H)]; [exact H|exfalso].
  rewrite app_assoc in Es. set (p := p0 ++ m) in *. assert (Hp : line_break p) by (apply separator_break; exists p0, m; auto).
  rewrite Es in H1, H2, H3, H4. destruct (suffix_safe H1 H2 H3 H4 Hp) as (Q1 & Q2 & Q3 & Q4).
  rewrite (cstr_id Q1) in H.
  assert (L : length q < S (length src)) by (rewrite Es, app_length; lia).
  pose proof (@C29_terminates_partial o q (S (length src)) Q1 Q2 L) as T.
  pose proof (C29_safe_partial (o := o) (fuel := S (length src)) Q1 Q3 Q4) as Sf.
  destruct (content_parse (S (length src)) o q None) as [b| |]; [exact (H b eq_refl)|contradiction|contradiction].
Qed.
Print Assumptions C26_result_partial.
(* The same for files whose line endings are all CR LF or all LF CR. *)
Lemma paired_suffix x y p q : paired x y (p ++ q) -> (forall c r, q = c :: r -> ~ newline_byte c) -> newline_byte y -> paired x y q.
Proof.
  intros H Hq Hy. remember (p ++ q) as s eqn:E. revert p E. induction H as [|c r Hc H IH|r H IH]; intros p E.
  - destruct p, q; try discriminate E. constructor.
  - destruct p as [|d p]; [cbn in E; subst q; constructor; assumption|]. injection E as -> E. apply (IH p E).
  - destruct p as [|d [|d' p]]; cbn in E.
    + subst q. apply Pr_end, H.
    + injection E as -> E. subst q. destruct (Hq y r eq_refl Hy).
    + injection E as -> -> E. apply (IH p E).
Qed.
Theorem C26_pairs_partial src md : (- 2 ^ 31 <= md < 2 ^ 31)%Z -> (Z.of_nat (length src) < 2 ^ 63)%Z ->
  no_nul src -> two_byte_ends src -> no_trailing_backslash src -> no_list_lines src ->
  exists r, source_parse (S (length src)) src md = Ok r /\ forall e n, r = Bad e -> se_at e = Some n -> n <= length src.
Proof.
  intros Hmd Hlen H1 H2 H3 H4. destruct (@C26_total_partial (S (length src)) src md Hmd Hlen) as [H|(p0 & m & q & o & Es & Hm & Hq & H)]; [exact H|exfalso].
  rewrite app_assoc in Es. set (p := p0 ++ m) in *. assert (Hp : line_break p) by (apply separator_break; exists p0, m; auto).
  assert (Q1 : no_nul q) by (intro K; apply H1; rewrite Es; apply in_or_app; auto).
  assert (Q2 : two_byte_ends q).
  { rewrite Es in H2. destruct H2 as [H2|H2]; [left|right]; (eapply paired_suffix; [exact H2|exact Hq|]); [left|right]; reflexivity. }
  assert (Q3 : no_trailing_backslash q) by (intros x y E; apply (H3 (p ++ x) y); rewrite Es, E; apply app_assoc).
  assert (Q4 : no_list_lines q).
  { intros x y E Hx. apply (H4 (p ++ x) y); [rewrite Es, E, app_assoc; reflexivity|].
    destruct Hx as [->|(x' & c & -> & Hc)]; [rewrite app_nil_r; exact Hp|]. right. exists (p ++ x'), c. rewrite app_assoc. auto. }
  assert (L : length q < S (length src)) by (rewrite Es, app_length; lia).
  rewrite (cstr_id Q1) in H. destruct (@C29_pairs_result_partial o q (S (length src)) Q1 Q2 Q3 Q4 L) as (b & E). exact (H b E).
Qed.
Print Assumptions C26_pairs_partial.
Example C26_pairs_example (s := B "A: b" ++ [CR; LF] ++ B "--" ++ [CR; LF; CR; LF] ++ B "> > c" ++ [CR; LF]) :
  no_nul s /\ two_byte_ends s /\ no_trailing_backslash s /\ no_list_lines s.
Proof.
  split; [apply no_nulb_spec; reflexivity|]. split.
  { left. vm_compute. repeat (first [apply Pr_nil|apply Pr_end|apply Pr_byte; [intros [K|K]; discriminate K|]]). }
  split; [apply ntbb_ok; vm_compute; reflexivity|apply nllb_ok; vm_compute; reflexivity].
Qed.
(* The same with lists and quotes: the lists of the content and of the quotes in it have an
   item for each of their lines. *)
Theorem C26_nested_partial src md : (- 2 ^ 31 <= md < 2 ^ 31)%Z -> (Z.of_nat (length src) < 2 ^ 63)%Z ->
  no_nul src -> one_newline_byte src -> no_trailing_backslash src ->
  (forall p m q t, src = p ++ m ++ q -> separator m -> inside q t -> no_empty_items t /\ lists_kept t) ->
  exists r, source_parse (S (length src)) src md = Ok r /\ forall e n, r = Bad e -> se_at e = Some n -> n <= length src.
Proof.
  intros Hmd Hlen H1 H2 H3 H4. destruct (@C26_total_partial (S (length src)) src md Hmd Hlen) as [H|(p & m & q & o & Es & Hm & _ & H)]; [exact H|exfalso].
  pose proof (fun t => H4 p m q t Es Hm) as Q4. rewrite app_assoc in Es.
  assert (Q1 : no_nul q) by (intro K; apply H1; rewrite Es; apply in_or_app; auto).
  assert (Q2 : one_newline_byte q) by (destruct H2 as [H2|H2]; [left|right]; intro K; apply H2; rewrite Es; apply in_or_app; auto).
  assert (Q3 : no_trailing_backslash q) by (intros x y E; apply (H3 ((p ++ m) ++ x) y); rewrite Es, E; apply app_assoc).
  assert (L : length q < S (length src)) by (rewrite Es, app_length; lia).
  rewrite (cstr_id Q1) in H. destruct (@C29_nested_partial o q (S (length src)) Q1 Q2 Q3 Q4 L) as (b & E). exact (H b E).
Qed.
Print Assumptions C26_nested_partial.
Fixpoint last_but_nl (s : bytes) : option ascii :=
  match s with
  | [] => None
  | c :: r => match last_but_nl r with Some d => Some d | None => if is_nl c then None else Some c end
  end.
Lemma last_but_separator p m : separator m -> last_but_nl (p ++ m) = Some "-"%char.
Proof.
  intros (n & nls & -> & _ & H). induction p as [|c p IH]; [|cbn [app last_but_nl]; rewrite IH; reflexivity]. cbn [app].
  induction n as [|n IH]; [|cbn [repeat app last_but_nl] in *; rewrite IH; reflexivity].
  cbn [repeat app last_but_nl]. replace (last_but_nl nls) with (@None ascii); [reflexivity|].
  induction H as [|c nls Hc H IHn]; [reflexivity|]. cbn. rewrite <- IHn. apply is_nl_iff in Hc. rewrite Hc. reflexivity.
Qed.
Definition contents_ok (s : bytes) : bool :=
  forallb (fun n => insideb 3 (skipn n s) || negb (ListChk.lbb (firstn n s)) || match last_but_nl (firstn n s) with Some c => negb (c == "-"%char) | None => true end)
    (seq 0 (S (length s))).
Lemma contents_ok_spec s : ~ In CR s -> contents_ok s = true ->
  forall p m q t, s = p ++ m ++ q -> separator m -> inside q t -> no_empty_items t /\ lists_kept t.
Proof.
  intros Hc H p m q t E Hm Ht. unfold contents_ok in H. rewrite forallb_forall in H. rewrite app_assoc in E. set (w := p ++ m) in *.
  assert (Hw : line_break w) by (apply separator_break; exists p, m; auto).
  assert (Cw : ~ In CR w) by (intro K; apply Hc; rewrite E; apply in_or_app; auto).
  assert (F : firstn (length w) s = w) by (rewrite E, firstn_app, Nat.sub_diag, firstn_all; apply app_nil_r).
  assert (G : skipn (length w) s = q) by (rewrite E; apply skipn_pre).
  assert (L : last_but_nl w = Some "-"%char) by apply (last_but_separator p Hm).
  specialize (H (length w) ltac:(apply in_seq; rewrite E, app_length; lia)). cbv beta in H. rewrite F, G, (proj1 (lbb_spec Cw) Hw), L in H.
  change (negb true) with false in H. change (negb ("-"%char == "-"%char)) with false in H. rewrite !orb_false_r in H.
  apply (@insideb_spec q 3); auto. intro K; apply Hc; rewrite E; apply in_or_app; auto.
Qed.
Example C26_nested_example (s := B "A: b" ++ [LF] ++ B "---" ++ [LF] ++ B "* a" ++ [LF] ++ B "* b" ++ [LF; LF] ++ B "> 1. c" ++ [LF]) :
  no_nul s /\ one_newline_byte s /\ no_trailing_backslash s /\
  (forall p m q t, s = p ++ m ++ q -> separator m -> inside q t -> no_empty_items t /\ lists_kept t) /\ ~ no_list_lines s.
Proof.
  assert (Hc : ~ In CR s) by (intro H; vm_compute in H; intuition discriminate).
  split; [apply no_nulb_spec; reflexivity|]. split; [left; exact Hc|]. split; [apply ntbb_ok; vm_compute; reflexivity|].
  split; [apply contents_ok_spec; [exact Hc|vm_compute; reflexivity]|].
  intro K. specialize (K (firstn 9 s) (skipn 9 s) eq_refl). discriminate K. right. exists (firstn 8 s), LF. split; [reflexivity|left; reflexivity].
Qed.
(* False in full: the failures of the content parser are those of the source parser. *)
Theorem C26_refuted : exists src, no_nul src /\ source_parse (S (length src)) src (-1) = UB.
Proof.
  exists (B "A: b" ++ [LF] ++ B "---" ++ [LF] ++ B "* a" ++ [LF] ++ B "b" ++ [LF; LF] ++ B "* c" ++ [LF]).
  split; [intro H; vm_compute in H; intuition discriminate|vm_compute; reflexivity].
Qed.
Print Assumptions C26_refuted.

(* ---- examples ---- *)
Definition ex_entries : list entry :=
  [Entry [] (B "TITLE") (B "  a: b  ") LF; Entry [LF; SP] (B "TOCTREE_MAXDEPTH") (B " +2") CR; Entry [] (B "TITLE") (TAB :: B "c") LF].
Lemma ex_entry g k w n : forallb (fun c => (c == SP) || (c == TAB) || (c == LF) || (c == CR)) g = true ->
  match k with c :: r => is_upper c && forallb (fun d => is_upper d || is_digit d || (d == "_"%char)) r | [] => false end = true ->
  existsb (beq k) reserved = false -> forallb (fun c => negb (is_nl c) && negb (c == NUL)) w = true -> is_nl n = true -> entry_ok (Entry g k w n).
Proof.
  intros H1 H2 H3 H4 H5. unfold entry_ok. cbn [e_gap e_key e_text e_nl]. split; [|split; [|split; [|split]]].
  - unfold gap. rewrite forallb_forall in H1. apply Forall_forall. intros c Hc. apply H1 in Hc. rewrite !orb_true_iff, !eqb_true in Hc. cbn [In]. intuition.
  - destruct k as [|c r]; [discriminate|]. apply andb_true_iff in H2. destruct H2 as [H2 H2']. exists c, r. split; [reflexivity|]. split; [exact H2|].
    rewrite forallb_forall in H2'. apply Forall_forall. intros d Hd. apply H2' in Hd. rewrite !orb_true_iff, eqb_true in Hd. tauto.
  - intro Hi. assert (X : existsb (beq k) reserved = true) by (apply existsb_exists; exists k; split; [exact Hi|apply beq_refl]). congruence.
  - unfold on_line. rewrite forallb_forall in H4. apply Forall_forall. intros c Hc. apply H4 in Hc. rewrite andb_true_iff, !negb_true_iff in Hc. destruct Hc as [C1 C2].
    split; [intro X; apply is_nl_iff in X; congruence|apply eqb_neq, C2].
  - apply is_nl_iff, H5.
Qed.
(* the hypotheses of C25_source *)
Example C25_example : exists els, Forall entry_ok ex_entries /\ gap [LF] /\ separator (B "----" ++ [LF; LF]) /\ body ex_doc /\ lines_end ex_doc [LF] /\
  doc [LF] true ex_doc els /\ headers els <> [] /\ depth (-1) (assigned ex_entries (B "TOCTREE_MAXDEPTH")) 2 /\
  assigned ex_entries (B "TITLE") = Some (B "c").
Proof.
  destruct ex_doc_ok as (els & Hd & He). exists els.
  split. { apply Forall_cons; [|apply Forall_cons; [|apply Forall_cons; [|apply Forall_nil]]]; apply ex_entry; reflexivity. }
  split. { apply Forall_cons; [cbn; tauto|apply Forall_nil]. }
  split. { exists 3, [LF; LF]. split; [reflexivity|]. split; [discriminate|]. repeat (apply Forall_cons; [left; reflexivity|]). apply Forall_nil. }
  split. { split; [vm_compute; lia|]. split; [apply no_nulb_spec; reflexivity|]. intros c r E. vm_compute in E. injection E as <- _. intros [X|X]; discriminate X. }
  split; [split; [left; reflexivity|right; reflexivity]|]. split; [exact Hd|].
  split. { destruct He as (_ & _ & Hf). clear -Hf. induction els as [|y els IH]; [discriminate|]. destruct y; cbn in *; auto; discriminate. }
  split; [|vm_compute; reflexivity]. change (depth (-1) (assigned ex_entries (B "TOCTREE_MAXDEPTH")) 2) with (integer (B "+2") 2).
  split; [lia|]. exists (B "2"), 2. split; [split; [discriminate|split; [repeat constructor|reflexivity]]|]. right. left. split; reflexivity.
Qed.
(* the file of the example and what it gives *)
Example C25_example_result : exists t, source_parse 99 (entries_src ex_entries ++ [LF] ++ (B "----" ++ [LF; LF]) ++ ex_doc) (-1) = Ok (Good t) /\
  trie_lookup t (B "TITLE") = Some (B "c") /\ trie_lookup t (B "CONTENT") = Some ex_html /\
  trie_lookup t (B "EXCERPT") = Some (B "<h2 id=""hi"">Hi</h2>" ++ [LF] ++ B "<p>p &lt; q</p>" ++ [LF]) /\
  trie_lookup t (B "TOCTREE") = Some (B "<ul>" ++ [LF] ++ B "    <li><a href=""#hi"">Hi</a></li>" ++ [LF] ++ B "</ul>" ++ [LF]).
Proof. eexists. split; [vm_compute; reflexivity|]. repeat split; vm_compute; reflexivity. Qed.
Definition ex_source : bytes := B "A: b" ++ [LF] ++ B "---" ++ [LF] ++ ex_safe.
Example C26_example : no_nul ex_source /\ one_newline_byte ex_source /\ no_trailing_backslash ex_source /\ no_list_lines ex_source.
Proof.
  split; [apply no_nulb_spec; reflexivity|]. split; [left; vm_compute; intuition discriminate|].
  split; [apply ntbb_ok; vm_compute; reflexivity|apply nllb_ok; vm_compute; reflexivity].
Qed.
