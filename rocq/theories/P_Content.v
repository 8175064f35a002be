(* Properties C27 to C30 and C58 to C60: the content parser. *)
From Verif Require Import Base Utils UtilsProofs Toctree Content InlineSpec InlineProofs InlineFwd BlockSpec BlockProofs BlockTerm BlockSafe
  BlockOut BlockLoop DocSpec ListSpec BlockFwd BlockDoc BlockList BlockNest PairSpec BlockPair ListChk ContentSpec ContentText.
#[local] Arguments B : simpl never.

(* ---- C27 ---- *)

(* No markup byte survives; every ampersand starts one of the six entities; and
   decoding gives the text back. *)
Theorem C27_htmlentities s :
  (forall c, In c (htmlentities s) -> ~ In c (DQ :: B "<>'/")) /\
  (forall x y, htmlentities s = x ++ "&"%char :: y -> exists ent c z, In (ent, c) entities /\ "&"%char :: y = ent ++ z) /\
  decode 0 (htmlentities s) = s.
Proof. exact (htmlentities_all s). Qed.
Print Assumptions C27_htmlentities.
(* Distinct texts have distinct escapes. *)
Theorem C27_injective s t : htmlentities s = htmlentities t -> s = t.
Proof. intro E. rewrite <- (proj2 (proj2 (htmlentities_all s))), E. apply htmlentities_all. Qed.
Print Assumptions C27_injective.
Example C27_example : htmlentities (B "a<b & ""c'/>") = B "a&lt;b &amp; &quot;c&#x27;&#x2F;&gt;" /\
  decode 0 (B "a&lt;b &amp; &quot;c&#x27;&#x2F;&gt;") = B "a<b & ""c'/>".
Proof. split; vm_compute; reflexivity. Qed.

(* ---- C28 ---- *)

(* Lower-case letters, digits and hyphens only, byte for byte: letters are put in
   lower case, digits kept, everything else becomes a hyphen. *)
Theorem C28_slugify s : anchor s (slugify s) /\ Forall slug_byte (slugify s) /\ length (slugify s) = length s /\
  slugify (slugify s) = slugify s.
Proof. exact (slugify_all s). Qed.
Print Assumptions C28_slugify.
Example C28_example : slugify (B "Hello, W0rld!") = B "hello--w0rld-".
Proof. reflexivity. Qed.

(* ---- C29 ---- *)

(* False in full, in three ways. A document with two line endings can make the
   parser call itself for ever on the same blockquote. *)
Theorem C29_terminates_refuted : exists s, no_nul s /\ forall o fuel, content_parse fuel o s None = OutOfFuel.
Proof.
  exists forever. split; [|exact content_forever]. intro H. revert H. vm_compute. intuition discriminate.
Qed.
Print Assumptions C29_terminates_refuted.
(* A continued list item leads to a use of the freed list of lines. *)
Theorem C29_use_after_free_refuted : exists s, no_nul s /\ one_newline_byte s /\ no_trailing_backslash s /\ content_parse 9 all_opts s None = UB.
Proof.
  exists (B "* a" ++ [LF] ++ B "b" ++ [LF; LF] ++ B "* c" ++ [LF]).
  split; [intro H; vm_compute in H; intuition discriminate|]. split; [left; vm_compute; intuition discriminate|].
  split; [|vm_compute; reflexivity]. intros x y E. exfalso.
  assert (H : In BSL (B "* a" ++ [LF] ++ B "b" ++ [LF; LF] ++ B "* c" ++ [LF])) by (rewrite E; apply in_elt).
  vm_compute in H. intuition discriminate.
Qed.
Print Assumptions C29_use_after_free_refuted.
(* An emphasis mark before a backslash at the end of the text leads to a read
   past the end. *)
Theorem C29_bounds_refuted : exists s, no_nul s /\ one_newline_byte s /\ no_list_lines s /\ content_parse 9 all_opts s None = UB.
Proof.
  exists (B "a*b" ++ [BSL; LF; LF]).
  split; [intro H; vm_compute in H; intuition discriminate|]. split; [left; vm_compute; intuition discriminate|].
  split; [|vm_compute; reflexivity].
  intros x y E. pose proof (f_equal (@length _) E) as El. rewrite app_length in El. vm_compute in El.
  assert (Ey : y = skipn (length x) (B "a*b" ++ [BSL; LF; LF])) by (rewrite E, skipn_len; reflexivity).
  assert (Hx : x = firstn (length x) (B "a*b" ++ [BSL; LF; LF])) by (rewrite E, firstn_app, Nat.sub_diag, firstn_all, app_nil_r; reflexivity).
  intro Hb. rewrite Ey. destruct (length x) as [|[|[|[|[|[|[|k]]]]]]]; try (vm_compute; reflexivity); try lia;
    exfalso; destruct Hb as [Hb|(x' & c & Hb & Hc)]; rewrite Hb in Hx; try discriminate Hx; vm_compute in Hx;
    apply (f_equal (@rev _)) in Hx; rewrite rev_app_distr in Hx; vm_compute in Hx; injection Hx as Hx _; rewrite Hx in Hc; destruct Hc; discriminate.
Qed.
Print Assumptions C29_bounds_refuted.

(* Termination, for every text that uses one of the two newline bytes only; the
   fuel bounds the nesting of blockquotes. *)
Theorem C29_terminates_partial o s fuel : no_nul s -> one_newline_byte s -> length s < fuel ->
  content_parse fuel o s None <> OutOfFuel.
Proof. exact (@content_ends o s fuel). Qed.
Print Assumptions C29_terminates_partial.
(* No undefined behaviour, for every text without lists and without a backslash at
   the end of a line. *)
Theorem C29_safe_partial o s fuel : no_nul s -> no_trailing_backslash s -> no_list_lines s -> content_parse fuel o s None <> UB.
Proof. intros H1 H2 H3. apply content_safe; [unfold lok; auto|discriminate]. Qed.
Print Assumptions C29_safe_partial.
(* Together: a result. The next theorem has lists and both newline bytes but no quotes, the
   one after it lists and quotes, and the two after that line endings of two bytes. Missing: texts
   with quotes and different line endings, texts with quotes, lists and line endings of two bytes
   (those of C60 are covered), lists with lines that belong to no item, and texts with a trailing
   backslash. *)
Theorem C29_result_partial o s : no_nul s -> one_newline_byte s -> no_trailing_backslash s -> no_list_lines s ->
  exists b, content_parse (S (length s)) o s None = Ok b.
Proof.
  intros H1 H2 H3 H4. pose proof (@C29_terminates_partial o s (S (length s)) H1 H2 ltac:(lia)).
  pose proof (C29_safe_partial (o := o) (fuel := S (length s)) H1 H3 H4).
  destruct (content_parse (S (length s)) o s None) as [b| |]; [eauto|contradiction|contradiction].
Qed.
Print Assumptions C29_result_partial.
(* Also with lists, with any mix of line endings, if each line of a list up to the next empty
   line belongs to an item, no mark stands alone on a line, and there are no quotes. *)
Theorem C29_lists_partial o s fuel : no_nul s -> no_trailing_backslash s -> no_quote_lines s -> no_empty_items s -> lists_kept s ->
  0 < fuel -> exists b, content_parse fuel o s None = Ok b.
Proof. intros H1 H2 H3 H4 H5 H6. destruct fuel as [|f]; [lia|]. exact (content_lists f o H1 H2 H3 H4 H5). Qed.
Print Assumptions C29_lists_partial.
Example C29_lists_example (s := B "# T" ++ [LF; LF] ++ B "* a" ++ [LF] ++ B "  more" ++ [LF] ++ B "* *b*" ++ [LF; LF] ++
    B "8.  x" ++ [LF] ++ B "10. y" ++ [LF] ++ B "    z" ++ [LF; LF] ++ B "1.5 end" ++ [LF]) :
  no_nul s /\ no_trailing_backslash s /\ no_quote_lines s /\ no_empty_items s /\ lists_kept s /\
  ~ no_list_lines s.
Proof.
  assert (Hc : ~ In CR s) by (intro H; vm_compute in H; intuition discriminate).
  split; [intro H; vm_compute in H; intuition discriminate|]. split.
  { intros x y E. exfalso. assert (H : In BSL s) by (rewrite E; apply in_elt). vm_compute in H. intuition discriminate. }
  split; [apply quotesb_spec; [exact Hc|vm_compute; reflexivity]|]. split; [apply itemsb_spec; [exact Hc|vm_compute; reflexivity]|].
  split; [apply keptb_spec; [exact Hc|vm_compute; reflexivity]|].
  intro K. specialize (K (firstn 5 s) (skipn 5 s) eq_refl). discriminate K. right. exists (firstn 4 s), LF. split; [reflexivity|left; reflexivity].
Qed.
(* And with lists and quotes, lists in quotes and quotes in quotes, if the text has one newline
   byte and the lists of the text and of all quotes inside it are such lists. *)
Theorem C29_nested_partial o s fuel : no_nul s -> one_newline_byte s -> no_trailing_backslash s ->
  (forall t, inside s t -> no_empty_items t /\ lists_kept t) -> length s < fuel -> exists b, content_parse fuel o s None = Ok b.
Proof.
  intros H1 H2 H3 H4 H5.
  assert (Hl : cnt s < fuel) by (pose proof (count_occ_bound ascii_dec ">"%char s); unfold cnt; lia).
  destruct (in_dec ascii_dec CR s) as [Hc|Hc].
  - apply (@content_nested fuel o s None CR); auto; [split; [right; reflexivity|auto]|].
    destruct H2 as [H2|H2]; [contradiction|]. intros c Hi Hn. apply is_nl_iff in Hn. destruct Hn as [-> | ->]; [contradiction|reflexivity].
  - apply (@content_nested fuel o s None LF); auto; [split; [left; reflexivity|auto]|].
    intros c Hi Hn. apply is_nl_iff in Hn. destruct Hn as [-> | ->]; [reflexivity|contradiction].
Qed.
Print Assumptions C29_nested_partial.
Example C29_nested_example (s := B "> * a" ++ [LF] ++ B "> * b" ++ [LF] ++ B "> " ++ [LF] ++ B "> > 1. c" ++ [LF; LF] ++ B "- d" ++ [LF; LF] ++
    B "> e" ++ [LF] ++ B "f" ++ [LF]) :
  no_nul s /\ one_newline_byte s /\ no_trailing_backslash s /\ (forall t, inside s t -> no_empty_items t /\ lists_kept t) /\
  inside s (B "1. c" ++ [LF]).
Proof.
  assert (Hc : ~ In CR s) by (intro H; vm_compute in H; intuition discriminate).
  split; [intro H; vm_compute in H; intuition discriminate|]. split; [left; exact Hc|]. split.
  { intros x y E. exfalso. assert (H : In BSL s) by (rewrite E; apply in_elt). vm_compute in H. intuition discriminate. }
  split; [apply insideb_spec with (fuel := 5); [exact Hc|vm_compute; reflexivity]|].
  pose (t := B "* a" ++ [LF] ++ B "* b" ++ [LF; LF] ++ B "> 1. c" ++ [LF]).
  apply In_quote with (t := t).
  - apply In_quote with (t := s); [apply In_self|].
    exists [], (firstn 23 s), (skipn 23 s), LF, (B "> "), [" "%char], [B "* a"; B "* b"; []; B "> 1. c"].
    repeat (apply conj); try (vm_compute; reflexivity); try (left; reflexivity).
    + right. exists LF, (skipn 24 s). split; [vm_compute; reflexivity|left; reflexivity].
    + repeat constructor.
    + assert (N : forall l, forallb (fun c => negb (c == CR) && negb (c == LF)) l = true -> Forall (fun c => ~ newline_byte c) l).
      { intros l Hl. apply Forall_forall. intros c Hi. rewrite forallb_forall in Hl. specialize (Hl c Hi). intros [-> | ->]; discriminate Hl. }
      change (quoted (B "> ") ((([[] ++ B "* a"] ++ [B "* b"]) ++ [[]]) ++ [B "> 1. c"])
        (((((B "> " ++ [] ++ B "* a") ++ LF :: B "> " ++ B "* b") ++ LF :: B "> " ++ [])) ++ LF :: B "> " ++ B "> 1. c")).
      repeat (apply QL_next; [|left; reflexivity|apply N; reflexivity]).
      apply QL_first with (c := "*"%char) (r := B " a"); [auto|apply N; reflexivity|reflexivity|intros [K|K]; discriminate K].
    + vm_compute. tauto.
  - exists (firstn 9 t), (B "> 1. c"), [LF], LF, (B "> "), [" "%char], [B "1. c"].
    repeat (apply conj); try (vm_compute; reflexivity); try (left; reflexivity).
    + right. exists (firstn 8 t), LF. split; [vm_compute; reflexivity|left; reflexivity].
    + right. exists LF, []. split; [reflexivity|left; reflexivity].
    + repeat constructor.
    + apply (@QL_first (B "> ") [] (B "1. c") "1"%char (B ". c")); [auto| |reflexivity|intros [K|K]; discriminate K].
      apply Forall_forall. intros c Hi. vm_compute in Hi. intros [-> | ->]; intuition discriminate.
    + vm_compute. tauto.
Qed.
(* Termination, for every text whose line endings are all CR LF or all LF CR. *)
Theorem C29_pairs_partial o s fuel : no_nul s -> two_byte_ends s -> length s < fuel -> content_parse fuel o s None <> OutOfFuel.
Proof.
  intros H1 H2 H3. assert (Hl : cnt s < fuel) by (pose proof (count_occ_bound ascii_dec ">"%char s); unfold cnt; lia).
  destruct H2 as [H2|H2].
  - apply (@pair_terminates CR LF); auto; [right; reflexivity|left; reflexivity|discriminate].
  - apply (@pair_terminates LF CR); auto; [left; reflexivity|right; reflexivity|discriminate].
Qed.
Print Assumptions C29_pairs_partial.
Theorem C29_pairs_result_partial o s fuel : no_nul s -> two_byte_ends s -> no_trailing_backslash s -> no_list_lines s ->
  length s < fuel -> exists b, content_parse fuel o s None = Ok b.
Proof.
  intros H1 H2 H3 H4 H5. pose proof (@C29_pairs_partial o s fuel H1 H2 H5).
  pose proof (C29_safe_partial (o := o) (fuel := fuel) H1 H3 H4).
  destruct (content_parse fuel o s None) as [b| |]; [eauto|contradiction|contradiction].
Qed.
Print Assumptions C29_pairs_result_partial.
(* quotes in quotes, and a quote whose first line is empty *)
Example C29_pairs_example (s := B "# a" ++ [CR; LF; CR; LF] ++ B "> > b" ++ [CR; LF] ++ B "> > c" ++ [CR; LF; CR; LF] ++
    B ">" ++ [CR; LF] ++ B "d" ++ [CR; LF]) :
  no_nul s /\ two_byte_ends s /\ no_trailing_backslash s /\ no_list_lines s.
Proof.
  split; [intro H; vm_compute in H; intuition discriminate|]. split.
  { left. vm_compute. repeat (first [apply Pr_nil|apply Pr_end|apply Pr_byte; [intros [K|K]; discriminate K|]]). }
  split; [apply ntbb_ok; vm_compute; reflexivity|apply nllb_ok; vm_compute; reflexivity].
Qed.
(* inline markup is safe and terminates for every text that does not end with an
   unfinished escape *)
Theorem C29_inline_partial s : no_nul s -> odd_tail s = false -> exists h, inline s = Ok h.
Proof.
  intros H1 H2. pose proof (inline_ok H1) as H. destruct (inline s) as [h| |]; [eauto| |].
  - exfalso. apply H. apply even_wsafe, H2.
  - destruct H.
Qed.
Print Assumptions C29_inline_partial.
Example C29_example : no_nul ex_safe /\ one_newline_byte ex_safe /\ no_trailing_backslash ex_safe /\ no_list_lines ex_safe.
Proof. exact ex_lok. Qed.

(* ---- C30 ---- *)

(* Paragraphs without markup become escaped paragraphs, for each of the four line
   endings, with and without the final blank line. *)
Theorem C30_paragraphs_partial o e ps fuel : ending e -> Forall (plain_para (o_exc o)) ps -> length (paras e ps) < fuel ->
  exists b, content_parse fuel o (paras e ps) None = Ok b /\
    b_rv b = flat_map (fun ls => B "<p>" ++ escape (joined e ls) ++ B "</p>" ++ e) ps.
Proof. exact (@paragraphs o e ps fuel). Qed.
Print Assumptions C30_paragraphs_partial.
(* Nor does the last line have to be ended, if it has at least two bytes. *)
Theorem C30_open_partial o e ps fuel : lines_end (open_paras e ps) e -> Forall (plain_para (o_exc o)) ps -> long_last (o_exc o) ps ->
  length (open_paras e ps) < fuel ->
  exists b, content_parse fuel o (open_paras e ps) None = Ok b /\
    b_rv b = flat_map (fun ls => B "<p>" ++ escape (joined e ls) ++ B "</p>" ++ e) ps.
Proof. exact (@open_paragraphs o e ps fuel). Qed.
Print Assumptions C30_open_partial.
Example C30_example_open : long_last true [[B "Tom & Jerry  <3"; B "yes!"]; [B "a-b"]] /\
  open_paras [LF] [[B "Tom & Jerry  <3"; B "yes!"]; [B "a-b"]] = B "Tom & Jerry  <3" ++ [LF] ++ B "yes!" ++ [LF; LF] ++ B "a-b".
Proof.
  split; [|reflexivity]. apply (@PF_plain true "a" (B "-")); [vm_compute; intuition discriminate|reflexivity|intros [X|X]; discriminate|discriminate].
Qed.
(* A last line of one byte that is not ended by a newline is lost. *)
Theorem C30_last_line_refuted : exists s b, content_parse 9 all_opts s None = Ok b /\ s = B "foo" ++ [LF] ++ B "b" /\
  b_rv b = B "<p>foo</p>" ++ [LF].
Proof. exists (B "foo" ++ [LF] ++ B "b"). eexists. split; [vm_compute; reflexivity|]. split; vm_compute; reflexivity. Qed.
Print Assumptions C30_last_line_refuted.
Example C30_example : Forall (plain_para true) [[B "Tom & Jerry  <3"; B "yes!"]; [B "a-b"]] /\
  paras [LF] [[B "Tom & Jerry  <3"; B "yes!"]; [B "a-b"]] = B "Tom & Jerry  <3" ++ [LF] ++ B "yes!" ++ [LF; LF] ++ B "a-b" ++ [LF].
Proof. split; [exact ex_plain|reflexivity]. Qed.

(* ---- C58 ---- *)

(* Inline markup is rendered as it means (InlineSpec.v). *)
Theorem C58_inline x y : no_nul x -> odd_tail x = false -> means x y -> inline x = Ok y.
Proof. intros H1 H2 H3. apply means_inline; [exact H1|apply even_wsafe, H2|exact H3]. Qed.
Print Assumptions C58_inline.
Example C58_example : means (B "a *b* **c** `d` [e](f)") (B "a <em>b</em> <strong>c</strong> <code>d</code> <a href=""f"">e</a>").
Proof. exact ex_means. Qed.
Example C58_example_malformed :
  means (B "a ** b [1], [c](d") (B "a ** b [1], [c](d") /\ means (B "see ![x] [1]") (B "see ![x] [1]").
Proof. exact ex_malformed. Qed.
(* Not so everywhere: two marks at the end of a text are lost, *)
Theorem C58_lost_refuted : exists x y, no_nul x /\ odd_tail x = false /\ x = B "a **" /\ inline x = Ok y /\ y = B "a ".
Proof. exists (B "a **"). eexists. split; [apply no_nulb_spec; reflexivity|]. split; [reflexivity|]. split; [reflexivity|]. split; vm_compute; reflexivity. Qed.
Print Assumptions C58_lost_refuted.
(* and what follows a link that is cut off within an emphasis is shown twice. *)
Theorem C58_twice_refuted : exists x y, no_nul x /\ odd_tail x = false /\ x = B "*see [1]* and" /\ inline x = Ok y /\
  y = B "<em>see [1]* and</em> and".
Proof. exists (B "*see [1]* and"). eexists. split; [apply no_nulb_spec; reflexivity|]. split; [reflexivity|]. split; [reflexivity|]. split; vm_compute; reflexivity. Qed.
Print Assumptions C58_twice_refuted.

(* ---- C59 ---- *)

(* Whatever the source, the output follows the grammar of blocks and inline
   elements, every element is closed and text is escaped; attribute values are
   those of the source only if it contains a bracket, and blocks of HTML only if it
   contains a less-than sign. The excerpt ends between blocks; first header and
   description are escaped text. *)
Theorem C59_output fuel o s b : no_nul s -> content_parse fuel o s None = Ok b ->
  bhtml (In "["%char s) (In "<"%char s) (b_rv b) /\
  (b_exc b <= length (b_rv b) /\ bhtml (In "["%char s) (In "<"%char s) (firstn (b_exc b) (b_rv b))) /\
  (forall f, b_fh b = Some f -> exists t, text_bytes t f) /\
  (forall f, b_desc b = Some f -> exists t, text_bytes t f) /\
  Forall (fun h => 1 <= h_level h /\ (exists t, h_slug h = Some t /\ Forall slug_byte t) /\
                   (exists x, h_text h = Some x /\ html (In "["%char s) x)) (b_hdrs b).
Proof.
  intros Hn E. assert (Hle : forall e, @None bytes = Some e -> Forall newline_byte e) by discriminate.
  destruct (content_html (raw := In "["%char s) (rawb := In "<"%char s) Hn (fun x => x) (fun x => x) Hle E) as (H1 & _ & _ & H2 & H3 & H4 & H5 & _).
  split; [exact H1|]. split; [exact H2|]. split; [exact H3|]. split; [exact H4|exact H5].
Qed.
Print Assumptions C59_output.
(* Attribute values are not escaped: an address can end its attribute. *)
Theorem C59_attributes_refuted : exists s b, ~ In "<"%char (firstn 1 s) /\ content_parse 9 all_opts s None = Ok b /\
  b_rv b = B "<p><a href=""""><script>"">a</a></p>" ++ [LF].
Proof.
  exists (B "[a](""><script>)" ++ [LF; LF]). eexists. split; [vm_compute; intuition discriminate|].
  split; vm_compute; reflexivity.
Qed.
Print Assumptions C59_attributes_refuted.
Example C59_example : exists b, content_parse 9 all_opts (B "x & *y*" ++ [LF]) None = Ok b /\
  b_rv b = B "<p>x &amp; <em>y</em></p>" ++ [LF] /\ bhtml False False (b_rv b).
Proof.
  eexists. split; [vm_compute; reflexivity|]. split; [vm_compute; reflexivity|].
  change (bhtml False False ((B "<p>" ++ (B "x " ++ B "&amp;" ++ [SP] ++ (B "<em>" ++ B "y" ++ B "</em>")) ++ B "</p>") ++ [LF])).
  assert (T : forall c, ~ In c (B "&<>'/") -> c <> DQ -> html False [c]).
  { intros c H1 H2. apply H_text with (c := c). apply TB_plain; assumption. }
  apply BH_app; [apply BH_p|apply BH_nl; left; reflexivity].
  change (B "x ") with (["x"%char] ++ [SP]).
  assert (T1 : forall c, c = "x"%char \/ c = SP \/ c = "y"%char -> html False [c]).
  { intros c H. apply T; [|intros ->; intuition discriminate]. intro X. vm_compute in X. intuition (subst; discriminate). }
  apply H_app; [apply H_app; apply T1; auto|]. apply H_app; [exact (H_text False TB_amp)|].
  apply H_app; [apply T1; auto|]. apply H_em. apply T1. auto.
Qed.

(* ---- C60 ---- *)

(* A document of the language of DocSpec.v, with any of the four line endings, is
   rendered element by element, whether its last line is ended or, if not too short, is
   not; first header, description, excerpt and the headers
   for the table of contents are those of the document. *)
Theorem C60_documents o e x els fuel : lines_end x e -> doc e (o_exc o) x els -> length x < fuel ->
  exists b, content_parse fuel o x None = Ok b /\
    b_rv b = doc_html e els /\
    firstn (b_exc b) (b_rv b) = match excerpt e [] None els with None => [] | Some c => c end /\
    b_fh b = (if o_fh o then first_header els else None) /\
    b_desc b = (if o_desc o then description els else None) /\
    b_hdrs b = (if o_hdrs o then heads els else []).
Proof. exact (@documents o e x els fuel). Qed.
Print Assumptions C60_documents.
Example C60_example : exists els, doc [LF] true ex_doc els /\
  doc_html [LF] els = ex_html /\ description els = Some (B "p &lt; q") /\ first_header els = Some (B "Hi"%string).
Proof. exact ex_doc_ok. Qed.
Example C60_example_first : doc [LF] true ex_first
  [EPara [B "*a* b"] (B "<em>a</em> b"); EPara [B "1984, c"] (B "1984, c"); EPara [B "#d"] (B "#d"); EPara [B "...e"] (B "...e")].
Proof. exact ex_first_ok. Qed.
Example C60_example_unended : lines_end ex_unended [LF] /\ exists els, doc [LF] true ex_unended els /\ doc_html [LF] els =
  B "<h1 id=""ab"">Ab</h1>" ++ [LF] ++ B "<blockquote><ul>" ++ [LF] ++ B "<li>cd</li>" ++ [LF] ++ B "<li>ef</li>" ++ [LF] ++ B "</ul>" ++ [LF] ++ B "</blockquote>" ++ [LF].
Proof. split; [split; [left; reflexivity|right; reflexivity]|exact ex_unended_ok]. Qed.
(* Beyond these documents text is lost or misplaced. The last line, when it is short and no
   line ending follows it, is lost: of a paragraph one byte, of a header, quote or list two. *)
Definition html_of (x : bytes) : option bytes := match content_parse 200 all_opts x None with Ok b => Some (b_rv b) | _ => None end.
Theorem C60_unended_refuted : exists x y, html_of (x ++ [LF] ++ y) = html_of x /\ html_of (x ++ [LF] ++ y ++ [LF]) <> html_of x /\
  x = B "one" ++ [LF] ++ B "two" /\ y = B "3".
Proof. exists (B "one" ++ [LF] ++ B "two"), (B "3"). split; [vm_compute; reflexivity|]. split; [intro X; vm_compute in X; discriminate X|]. split; reflexivity. Qed.
Print Assumptions C60_unended_refuted.
Theorem C60_unended_block_refuted : Forall (fun y => html_of (B "one" ++ [LF; LF] ++ y) = html_of (B "one") /\ html_of (B "one" ++ [LF; LF] ++ y ++ [LF]) <> html_of (B "one"))
  [B "# A"; B "> a"; B "    a"; B "* a"].
Proof. repeat (constructor; [split; [vm_compute; reflexivity|intro X; vm_compute in X; discriminate X]|]). constructor. Qed.
Print Assumptions C60_unended_block_refuted.
(* When the last line of a quote or of a block of code lacks the prefix, the blank line after
   it does not separate it from what follows. *)
Theorem C60_lazy_refuted : Forall (fun p => html_of (p ++ B "a" ++ [LF] ++ B "b" ++ [LF; LF] ++ B "next" ++ [LF]) =
    option_map (fun h => B "<p>" ++ h ++ [LF; LF] ++ B "next</p>" ++ [LF]) (match inline (p ++ B "a" ++ [LF] ++ B "b") with Ok h => Some h | _ => None end))
  [B "> "; B "    "].
Proof. repeat (constructor; [vm_compute; reflexivity|]). constructor. Qed.
Print Assumptions C60_lazy_refuted.
(* A quote whose first line is only a mark: the marks of its next lines are not taken off, so
   that a quote appears in the quote; and the next lines need no mark. *)
Theorem C60_empty_quote_refuted (q := fun h => B "<blockquote>" ++ h ++ B "</blockquote>" ++ [LF]) (foo := B "<p>foo</p>" ++ [LF]) :
  html_of (B "> a" ++ [LF] ++ B "> foo" ++ [LF]) = Some (q (B "<p>a" ++ [LF] ++ B "foo</p>" ++ [LF])) /\
  html_of (B ">" ++ [LF] ++ B "> foo" ++ [LF]) = Some (q (q foo)) /\ html_of (B ">" ++ [LF] ++ B "foo" ++ [LF]) = Some (q foo).
Proof. split; [|split]; vm_compute; reflexivity. Qed.
Print Assumptions C60_empty_quote_refuted.
(* The mark of an item alone on a line: the empty line after it does not separate it from
   what follows; and for an asterisk it depends on the line ending whether there is a list. *)
Theorem C60_empty_item_refuted :
  html_of (B "+" ++ [LF; LF] ++ B "foo" ++ [LF]) = Some (B "<p>+" ++ [LF; LF] ++ B "foo</p>" ++ [LF]) /\
  html_of (B "*" ++ [LF] ++ B "foo" ++ [LF]) = Some (B "<p>*" ++ [LF] ++ B "foo</p>" ++ [LF]) /\
  html_of (B "*" ++ [CR; LF] ++ B "foo" ++ [CR; LF]) =
    Some (B "<ul>" ++ [CR; LF] ++ B "<li>" ++ [LF] ++ B "foo</li>" ++ [CR; LF] ++ B "</ul>" ++ [CR; LF]).
Proof. split; [|split]; vm_compute; reflexivity. Qed.
Print Assumptions C60_empty_item_refuted.
(* When a line of full stops is followed by a line of one byte, all the rest of the document
   becomes a paragraph and appears once more after it; at the start, the two lines are lost. *)
Theorem C60_dots_refuted : exists x y, x = B "xyz" ++ [LF; LF] ++ B "..." ++ [LF] ++ B "a" ++ [LF; LF] ++ B "rest" ++ [LF] /\ html_of x = Some y /\
  y = B "<p>xyz</p>" ++ [LF] ++ B "<p>..." ++ [LF] ++ B "a" ++ [LF; LF] ++ B "rest" ++ [LF] ++ B "</p>" ++ [LF] ++ B "<p>rest</p>" ++ [LF].
Proof. eexists. eexists. split; [reflexivity|]. split; vm_compute; reflexivity. Qed.
Print Assumptions C60_dots_refuted.
Theorem C60_dots_lost_refuted : html_of (B "..." ++ [LF] ++ B "a" ++ [LF; LF] ++ B "rest" ++ [LF]) = Some (B "<p></p>" ++ [LF] ++ B "<p>rest</p>" ++ [LF]).
Proof. vm_compute. reflexivity. Qed.
Print Assumptions C60_dots_lost_refuted.
