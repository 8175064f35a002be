(* Property C101: a post as it is loaded from its file. *)
From Coq Require Import ZArith.
From Verif Require Import Base Utils UtilsProofs Trie TrieProofs Toctree ToctreeSpec Content BlockSpec DocSpec ContentSpec Source SourceSpec SourceProofs SourceTotal
  Loader LoaderSpec LoaderProofs P_Source.
#[local] Arguments B : simpl never.

(* how deep the table of contents of a post is: what the post says, or else what the configuration says,
   or else without a limit *)
Definition wanted_depth (conf : trie bytes) (l : list entry) (d : Z) : Prop :=
  depth (-1) (or_else (assigned l (B "TOCTREE_MAXDEPTH")) (trie_lookup conf (B "TOCTREE_MAXDEPTH"))) d.

(* C101 *)
Theorem C101_post contents fuel conf f n l g sep x e els :
  f <> [] -> file_name f n -> contents f = Some (entries_src l ++ g ++ sep ++ x) ->
  Forall entry_ok l -> gap g -> separator sep -> body x ->
  lines_end x e -> doc e true x els -> length x < fuel -> (Z.of_nat (length x) < 2 ^ 63)%Z ->
  (headers els <> [] -> assigned l (B "TOCTREE") = None -> exists d, wanted_depth conf l d) ->
  exists t, source_parse_from_file contents fuel conf f = Ok (Loaded t) /\
    trie_lookup t (B "FILENAME") = Some n /\
    trie_lookup t (B "RAW_CONTENT") = Some x /\
    trie_lookup t (B "CONTENT") = Some (doc_html e els) /\
    trie_lookup t (B "EXCERPT") = Some (excerpt_html e els) /\
    trie_lookup t (B "FIRST_HEADER") = or_else (assigned l (B "FIRST_HEADER")) (first_header els) /\
    trie_lookup t (B "DESCRIPTION") = or_else (assigned l (B "DESCRIPTION")) (description els) /\
    (forall v, assigned l (B "TOCTREE") = Some v -> trie_lookup t (B "TOCTREE") = Some v) /\
    (assigned l (B "TOCTREE") = None -> headers els = [] -> trie_lookup t (B "TOCTREE") = None) /\
    (assigned l (B "TOCTREE") = None -> headers els <> [] ->
       exists d, wanted_depth conf l d /\ table (headers els) d e (trie_lookup t (B "TOCTREE"))) /\
    forall k, no_nul k -> ~ In k (B "FILENAME" :: set_for_you) -> trie_lookup t k = assigned l k.
Proof.
  intros Hf Hn Hc Hl Hg Hs Hx He Hd Hfu Hlen Hw. unfold source_parse_from_file. rewrite Hc.
  set (md := match trie_lookup conf (B "TOCTREE_MAXDEPTH") with None => _ | Some _ => _ end).
  assert (Hmd : (- 2 ^ 31 <= md < 2 ^ 31)%Z) by (unfold md; destruct (trie_lookup conf _); [apply to_int_range|lia]).
  assert (W1 : forall d, wanted_depth conf l d -> depth md (assigned l (B "TOCTREE_MAXDEPTH")) d).
  { unfold wanted_depth, depth, or_else. intro d. destruct (assigned l (B "TOCTREE_MAXDEPTH")) as [m0|]; [auto|]. unfold md. destruct (trie_lookup conf (B "TOCTREE_MAXDEPTH")) as [m1|]; [|auto].
    intro H. pose proof (integer_strtol H) as [-> E]. cbn [fst]. congruence. }
  assert (W2 : forall d d', wanted_depth conf l d -> depth md (assigned l (B "TOCTREE_MAXDEPTH")) d' -> wanted_depth conf l d').
  { intros d d' H1 H2. pose proof (W1 d H1) as H3. revert H1 H2 H3. unfold wanted_depth, depth, or_else.
    destruct (assigned l (B "TOCTREE_MAXDEPTH")) as [m0|]; [auto|]. intros H1 H2 H3. replace d' with d by congruence. exact H1. }
  destruct (@C25_source fuel md l g sep x e els Hl Hg Hs Hx He Hd Hfu Hlen Hmd) as (t & Et & V1 & V2 & V3 & V4 & V5 & V6 & V7 & V8 & V9).
  { intros H1 H2. destruct (Hw H1 H2) as (d & H). exists d. apply W1, H. }
  exists (trie_insert t (B "FILENAME") n). rewrite Et. cbn [rbind]. rewrite (file_name_get Hf Hn). split; [reflexivity|].
  assert (L : forall k, no_nul k -> k <> B "FILENAME" -> trie_lookup (trie_insert t (B "FILENAME") n) k = trie_lookup t k).
  { intros k Hk N. rewrite trie_lookup_insert by (try assumption; apply nn; reflexivity). destruct (beq (B "FILENAME") k) eqn:E; [|reflexivity].
    apply beq_eq in E. congruence. }
  split; [rewrite trie_lookup_insert by (apply nn; reflexivity); rewrite beq_refl; reflexivity|].
  rewrite !(L (B "RAW_CONTENT")), !(L (B "CONTENT")), !(L (B "EXCERPT")), !(L (B "FIRST_HEADER")), !(L (B "DESCRIPTION")), !(L (B "TOCTREE"))
    by (first [discriminate|apply nn; reflexivity]).
  repeat (split; [assumption|]). split.
  - intros H1 H2. destruct (V8 H1 H2) as (d & Hd1 & Hd2). destruct (Hw H2 H1) as (d0 & H0). exists d. split; [exact (W2 d0 d H0 Hd1)|exact Hd2].
  - intros k Hk N. rewrite L; [|exact Hk|intros ->; apply N; left; reflexivity]. apply V9; [exact Hk|]. intro K. apply N. right. exact K.
Qed.
Print Assumptions C101_post.
(* the file of C25_example; it asks for two levels, the configuration for one *)
Example C101_example (conf := trie_insert trie_new (B "TOCTREE_MAXDEPTH") (B "1")) :
  wanted_depth conf ex_entries 2 /\ wanted_depth conf [] 1 /\ wanted_depth trie_new [] (-1) /\ file_name (B "posts/a.txt") (B "a").
Proof.
  assert (I : forall k, (0 <= Z.of_nat k < 10)%Z -> decimal k (Content.dec (N.of_nat k)) -> integer (Content.dec (N.of_nat k)) (Z.of_nat k)).
  { intros k Hk Hd. split; [lia|]. exists (Content.dec (N.of_nat k)), k. auto. }
  split; [|split; [|split; [reflexivity|]]].
  - destruct C25_example as (els & _ & _ & _ & _ & _ & _ & _ & H & _). exact H.
  - apply (I 1); [lia|]. split; [discriminate|]. split; [repeat constructor|reflexivity].
  - exists (B "posts/"), (B ".txt"). split; [reflexivity|]. split; [right; exists (B "posts"), "/"%char; split; [reflexivity|left; reflexivity]|].
    split; [repeat (apply Forall_cons; [intros [X|X]; discriminate X|]); apply Forall_nil|].
    right. exists (B "txt"). split; [reflexivity|intro H; vm_compute in H; intuition discriminate].
Qed.
(* with a configuration only, one level is left of two *)
Example C101_result (conf := trie_insert trie_new (B "TOCTREE_MAXDEPTH") (B "1"))
  (src := B "A: b" ++ [LF] ++ B "---" ++ [LF] ++ B "# x" ++ [LF; LF] ++ B "## y" ++ [LF]) :
  exists t, source_parse_from_file (fun _ => Some src) 99 conf (B "posts/a.txt") = Ok (Loaded t) /\
    trie_lookup t (B "FILENAME") = Some (B "a") /\
    trie_lookup t (B "TOCTREE") = Some (B "<ul>" ++ [LF] ++ B "    <li><a href=""#x"">x</a></li>" ++ [LF] ++ B "</ul>" ++ [LF]).
Proof. eexists. split; [vm_compute; reflexivity|]. split; vm_compute; reflexivity. Qed.
