(* Property theorems C01-C11, C13, C14 (src/common). *)
From Coq Require Import Permutation Sorting.Sorted.
From Verif Require Import Base Utils Trie TrieProofs ShSpec UtilsProofs StrBuf StrBufProofs
  Sort SortProofs Utf8 Utf8Proofs FileIO FileIOProofs ErrorPos ErrorPosProofs.

(* ---------- C01 ---------- *)
Theorem C01_utf8_exact : forall s : bytes,
  exists b, utf8_validate s = Ok b /\ (b = true <-> utf8 s).
Proof. exact validate_exact. Qed.
Print Assumptions C01_utf8_exact.

Example C01_accepts : utf8_validate (encode 0x20AC ++ B "x" ++ encode 0x10FFFF) = Ok true.
Proof. vm_compute. reflexivity. Qed.
Example C01_rejects_surrogate : utf8_validate ["237"; "160"; "128"]%char = Ok false.
Proof. vm_compute. reflexivity. Qed.

(* ---------- C02 ---------- *)
Theorem C02_file_exact : forall (content : bytes) (sz : list nat) (fuel : nat),
  length content + 2 < fuel ->
  file_get_contents fuel false (opened content sz false) = Ok (Some content).
Proof. exact file_plain. Qed.
Print Assumptions C02_file_exact.

Theorem C02_file_utf8 : forall (content : bytes) (sz : list nat) (fuel : nat),
  length content + 2 < fuel ->
  (utf8 content ->
     file_get_contents fuel true (opened content sz false) = Ok (Some (without_bom content)))
  /\ (~ utf8 content ->
     file_get_contents fuel true (opened content sz false) = Ok None).
Proof. exact file_utf8. Qed.
Print Assumptions C02_file_utf8.

Theorem C02_stdin_exact : forall input : bytes, stdin_read input = input.
Proof. exact stdin_all. Qed.
Print Assumptions C02_stdin_exact.

Example C02_bom : file_get_contents 20 true (opened (BOM ++ BOM ++ B "ab") [1; 2; 1] false)
                  = Ok (Some (BOM ++ B "ab")).
Proof. vm_compute. reflexivity. Qed.

(* ---------- C57 ---------- *)
(* An unreadable stream (fopen succeeds, every read fails, as for a directory)
   keeps the loop running for ever: feof is never set. *)
Theorem C57_read_terminates_refuted : exists s : stream, forall (fuel : nat) (u : bool),
  file_get_contents fuel u s = OutOfFuel.
Proof.
  exists (opened [] [] true). intros fuel u. unfold file_get_contents.
  rewrite broken_forever by reflexivity. reflexivity.
Qed.
Print Assumptions C57_read_terminates_refuted.

(* ---------- C03 ---------- *)
Theorem C03_trie_is_a_map : forall (V : Type) (h : list (bytes * V)) (k : bytes),
  keys_ok h -> no_nul k -> trie_lookup (trie_inserts h trie_new) k = last_value h k.
Proof. exact trie_history. Qed.
Print Assumptions C03_trie_is_a_map.

Theorem C03_insert_frame : forall (V : Type) (t : trie V) (k : bytes) (v : V) (k' : bytes),
  no_nul k -> no_nul k' ->
  trie_lookup (trie_insert t k v) k' = if beq k k' then Some v else trie_lookup t k'.
Proof. exact trie_lookup_insert. Qed.
Print Assumptions C03_insert_frame.

Definition ex_hist : list (bytes * nat) :=
  [(B "foo", 1); (B "foobar", 2); (B "", 3); (B "foo", 4); (B "fo", 5)].
Example C03_example : keys_ok ex_hist /\
  map (trie_lookup (trie_inserts ex_hist trie_new)) [B "foo"; B "foob"; B ""; B "fo"; B "foobar"]
  = [Some 4; None; Some 3; Some 5; Some 2].
Proof. split; [repeat constructor; apply no_nulb_spec; reflexivity|vm_compute; reflexivity]. Qed.

(* ---------- C04 ---------- *)
Theorem C04_foreach_and_size : forall (V : Type) (h : list (bytes * V)),
  keys_ok h ->
  let calls := trie_foreach (trie_inserts h trie_new) in
  NoDup (map fst calls)
  /\ (forall k d, In (k, d) calls <-> exists v, d = Some v /\ last_value h k = Some v)
  /\ trie_size (trie_inserts h trie_new) = length (nodup bytes_dec (map fst h)).
Proof. exact trie_foreach_spec. Qed.
Print Assumptions C04_foreach_and_size.

Example C04_example : trie_size (trie_inserts ex_hist trie_new) = 4
  /\ trie_foreach (trie_inserts ex_hist trie_new)
     = [(B "foo", Some 4); (B "foobar", Some 2); (B "fo", Some 5); (B "", Some 3)].
Proof. vm_compute. split; reflexivity. Qed.

(* ---------- C05 ---------- *)
Theorem C05_freed_exactly_once : forall (V : Type) (h : list (bytes * V)),
  keys_ok h ->
  let '(t, freed) := trie_inserts_f h trie_new in
  t = trie_inserts h trie_new /\ Permutation (freed ++ trie_free t) (map snd h).
Proof.
  intros V h Hh. pose proof (@trie_ownership V h trie_new Hh) as H.
  pose proof (@trie_inserts_f_fst V h trie_new) as Hf.
  destruct (trie_inserts_f h trie_new) as [t freed]. simpl in *.
  rewrite app_nil_r in H. auto.
Qed.
Print Assumptions C05_freed_exactly_once.

Example C05_example : snd (trie_inserts_f ex_hist trie_new) = [1]
  /\ trie_free (trie_inserts ex_hist trie_new) = [3; 5; 4; 2].
Proof. vm_compute. split; reflexivity. Qed.

(* ---------- C06 ---------- *)
Theorem C06_string_builder : forall ops : list sb_op,
  Forall op_ok ops ->
  exists b, (do b0 <- sb_new ; sb_run b0 ops) = Ok b
    /\ sb_len b = length (concat (map op_bytes ops))
    /\ sb_alloc b = length (sb_block b)
    /\ firstn (sb_len b + 1) (sb_block b) = map Some (concat (map op_bytes ops) ++ [NUL]).
Proof.
  intros ops H. destruct (sb_program H) as (b & E & H1 & H2 & H3).
  exists b. rewrite H1. auto.
Qed.
Print Assumptions C06_string_builder.

Example C06_example :
  (do b0 <- sb_new ; do b <- sb_run b0 [OpStr (Some (repeat "a"%char 127)); OpChar "b"%char;
       OpEscaped (Some (B "\\\x")); OpLen (B "xyz") 2; OpPrintf (B "7"); OpStr None] ;
   Ok (sb_len b, sb_alloc b))
  = Ok (133, 256).
Proof. vm_compute. reflexivity. Qed.

(* ---------- C07 ---------- *)
Theorem C07_split_join : forall (s : bytes) (c : ascii) (m : nat),
  strv_join (str_split s c m) [c] = s.
Proof. exact split_join. Qed.
Print Assumptions C07_split_join.

Theorem C07_split_pieces : forall (s : bytes) (c : ascii) (m : nat),
  Forall (fun p => ~ In c p) (removelast (str_split s c m))
  /\ (m = 0 -> Forall (fun p => ~ In c p) (str_split s c m))
  /\ (s = [] -> str_split s c m = [])
  /\ (s <> [] -> length (str_split s c m) =
        if Nat.eqb m 0 then S (count_sep c s) else Nat.min m (S (count_sep c s))).
Proof.
  intros s c m. split; [apply split_pieces|]. split; [intros ->; apply split_pieces0|].
  split; [intros ->; reflexivity|apply split_length].
Qed.
Print Assumptions C07_split_pieces.

Theorem C07_join_split : forall (v : list bytes) (c : ascii),
  Forall (fun p => ~ In c p) v -> v <> [[]] -> str_split (strv_join v [c]) c 0 = v.
Proof. exact join_split. Qed.
Print Assumptions C07_join_split.

Example C07_example : str_split (B ":a::b") ":" 0 = [B ""; B "a"; B ""; B "b"]
  /\ str_split (B ":a::b") ":" 3 = [B ""; B "a"; B ":b"].
Proof. vm_compute. split; reflexivity. Qed.

(* ---------- C08 ---------- *)
Theorem C08_replace : forall (s : bytes) (c : ascii) (r : bytes),
  str_replace s c r = flat_map (fun x => if x == c then r else [x]) s.
Proof. exact replace_spec. Qed.
Print Assumptions C08_replace.

Example C08_example : str_replace (B "a b ") SP (B "%20") = B "a%20b%20".
Proof. vm_compute. reflexivity. Qed.

(* ---------- C09 ---------- *)
Theorem C09_strip : forall s t : bytes, strip s = t <-> stripped s t.
Proof. exact strip_spec. Qed.
Print Assumptions C09_strip.

Theorem C09_strip_idempotent : forall s : bytes, strip (strip s) = strip s.
Proof. exact strip_idem. Qed.
Print Assumptions C09_strip_idempotent.

Example C09_example : strip (B "  a b " ++ [LF; VT]) = B "a b" /\ strip [SP; FF] = [].
Proof. vm_compute. split; reflexivity. Qed.

(* ---------- C10 ---------- *)
Theorem C10_quote_one_word : forall s : bytes, no_nul s ->
  sh_words (shell_quote (Some s)) = Some [s].
Proof. exact quote_one_word. Qed.
Print Assumptions C10_quote_one_word.

Theorem C10_quote_in_context : forall (pre : bytes) (ws : list bytes) (s post : bytes),
  no_nul s -> sh_words pre = Some ws ->
  sh_run (Sh [] Blank) (pre ++ [SP] ++ shell_quote (Some s) ++ [SP] ++ post)
  = sh_run (Sh (ws ++ [s]) Blank) post.
Proof. exact quote_in_context. Qed.
Print Assumptions C10_quote_in_context.

Example C10_example : sh_words (B "cp -- " ++ shell_quote (Some (B "it's; $HOME!")) ++ B " dst")
  = Some [B "cp"; B "--"; B "it's; $HOME!"; B "dst"].
Proof. vm_compute. reflexivity. Qed.
Example C10_unquoted_is_rejected : sh_words (B "cp a;b") = None.
Proof. vm_compute. reflexivity. Qed.

(* ---------- C11 ---------- *)
Theorem C11_sort_any_comparison : forall (A : Type) (cmp : A -> A -> Z) (l : list A),
  exists l', slist_sort cmp l = Ok l' /\ Permutation l l'.
Proof. exact sort_any. Qed.
Print Assumptions C11_sort_any_comparison.

Theorem C11_sort_stable : forall (A : Type) (cmp : A -> A -> Z),
  (forall a b, (cmp a b <= 0)%Z \/ (cmp b a <= 0)%Z) ->
  (forall a b c, (cmp a b <= 0)%Z -> (cmp b c <= 0)%Z -> (cmp a c <= 0)%Z) ->
  forall l : list A, exists l', slist_sort cmp l = Ok l'
    /\ StronglySorted (fun a b => (cmp a b <= 0)%Z) l'
    /\ forall z, filter (fun x => (cmp z x <=? 0)%Z && (cmp x z <=? 0)%Z) l'
               = filter (fun x => (cmp z x <=? 0)%Z && (cmp x z <=? 0)%Z) l.
Proof. exact sort_preorder. Qed.
Print Assumptions C11_sort_stable.

Example C11_example :
  slist_sort (fun a b => (fst a - fst b)%Z)
    [(3, "a"); (1, "b"); (3, "c"); (2, "d"); (1, "e")]%Z%string
  = Ok [(1, "b"); (1, "e"); (2, "d"); (3, "a"); (3, "c")]%Z%string.
Proof. vm_compute. reflexivity. Qed.

(* ---------- C13 ---------- *)
(* On a C string stored in a block ending with its NUL, bc_str_find reads after
   the block: *)
Theorem C13_find_in_bounds_refuted : exists (s : bytes) (c : ascii),
  no_nul s /\ c <> NUL /\ str_find s c = UB.
Proof.
  exists (B "foo\"), "*"%char. split; [apply no_nulb_spec; reflexivity|].
  split; [discriminate|reflexivity].
Qed.
Print Assumptions C13_find_in_bounds_refuted.

(* exactly when there is no unescaped occurrence and the string ends with an
   odd number of backslashes; otherwise the answer is the first unescaped
   occurrence (c = backslash excluded: it is never found). *)
Theorem C13_find_partial : forall (s : bytes) (c : ascii),
  no_nul s -> c <> NUL -> c <> BSL ->
  match str_find s c with
  | Ok (Some i) => unescaped_occ s c i /\ forall j, j < i -> ~ unescaped_occ s c j
  | Ok None => (forall j, ~ unescaped_occ s c j) /\ escaped s (length s) = false
  | UB => (forall j, ~ unescaped_occ s c j) /\ escaped s (length s) = true
  | OutOfFuel => False
  end.
Proof. exact find_spec. Qed.
Print Assumptions C13_find_partial.

(* the two bytes left out: the terminating NUL is found where the string ends, whatever backslashes
   stand before it; a backslash is never found *)
Theorem C13_special : forall (s : bytes),
  (exists i, str_find s NUL = Ok (Some i) /\ nth i (s ++ [NUL]) BSL = NUL /\ i = length s) /\
  (forall i, str_find s BSL <> Ok (Some i)).
Proof.
  intro s. split.
  - exists (length s). repeat split. rewrite app_nth2, Nat.sub_diag; [reflexivity|apply le_n].
  - intros i. change (str_find s BSL) with (str_find_go (s ++ [NUL]) 0 BSL). generalize 0.
    assert (G : forall n l k, length l <= n -> str_find_go l k BSL <> Ok (Some i)); [|intro k; exact (G _ _ k (le_n _))].
    induction n as [|n IH]; intros [|x r] k L; cbn [str_find_go length] in *; try discriminate; [inversion L|].
    destruct (x == NUL); [discriminate|]. destruct (x == BSL) eqn:E.
    + destruct r as [|y r]; [discriminate|]. apply IH. cbn [length] in L. apply le_S_n in L. apply le_S_n. apply le_S. exact L.
    + apply IH. apply le_S_n. exact L.
Qed.
Print Assumptions C13_special.

Example C13_example : str_find (B "a\]b]c]") "]" = Ok (Some 4)
  /\ str_find (B "a\\") "]" = Ok None /\ str_find (B "a\]\") "]" = UB.
Proof. vm_compute. repeat split; reflexivity. Qed.

(* ---------- C14 ---------- *)
(* The full statement (every text read as LF, CR or CRLF terminated lines, every
   offset) is false of the code: a LF CR pair is taken for one terminator, so
   the third line of "a\n\rb" is reported as line 2, *)
Theorem C14_line_number_refuted : exists ls a b,
  lines_ok ls (a ++ b) /\ no_newline a /\ no_newline b /\ a ++ b <> []
  /\ error_near (text ls (a ++ b)) (lines_len ls + length a) = Some (2, 1, a ++ b)
  /\ length ls + 1 = 3.
Proof.
  exists [(B "a", [LF]); ([], [CR])], [], (B "b"). vm_compute.
  repeat split; try (intros [H|H]; [discriminate|destruct H]); try (intros H; exact H);
    try constructor; try discriminate; intros _ [r H]; discriminate.
Qed.
Print Assumptions C14_line_number_refuted.

(* and on an empty line the quoted text is not that line but the rest of the
   file. *)
Theorem C14_quoted_line_refuted : exists ls rest,
  lines_ok ls rest
  /\ error_near (text ls rest) (lines_len ls) = Some (2, 1, rest)
  /\ rest = [LF] ++ B "secret".
Proof.
  exists [(B "a", [LF])], ([LF] ++ B "secret"). vm_compute.
  repeat split; try (intros [H|H]; [discriminate|destruct H]); try constructor; discriminate.
Qed.
Print Assumptions C14_quoted_line_refuted.

(* What holds: no LF CR pair, the offset on a byte of a non-empty line (or at
   its end). *)
Theorem C14_error_position_partial : forall (ls : list (bytes * bytes)) (a b rest : bytes),
  let src := text ls (a ++ b ++ rest) in
  lines_ok ls (a ++ b ++ rest) -> no_lfcr src ->
  no_newline a -> no_newline b -> a ++ b <> [] ->
  (rest = [] \/ exists c r, rest = c :: r /\ (c = LF \/ c = CR)) ->
  no_nul (a ++ b) ->
  error_near src (lines_len ls + length a) = Some (length ls + 1, length a + 1, a ++ b).
Proof. exact error_near_spec. Qed.
Print Assumptions C14_error_position_partial.

Example C14_example :
  error_near (B "key = 1" ++ [CR; LF] ++ [LF] ++ B "bad line" ++ [CR] ++ B "x") 14
  = Some (3, 5, B "bad line").
Proof. vm_compute. reflexivity. Qed.
Example C14_example_hyps :
  lines_ok [(B "key = 1", [CR; LF]); ([], [LF])] (B "bad " ++ B "line" ++ [CR] ++ B "x").
Proof.
  vm_compute. repeat split; try (intro H; repeat destruct H as [H|H]; (discriminate || destruct H));
  try constructor; discriminate.
Qed.
