(* Properties C12, C33-C36 and C56: listings of posts. *)
From Coq Require Import ZArith Permutation Sorting.Sorted.
From Verif Require Import Base Utils Trie TrieProofs Datetime Sort Source BlockSpec Loader LoaderSpec LoaderProofs.
#[local] Arguments B : simpl never.
#[local] Open Scope Z_scope.

(* ---- C33 ---- *)
Theorem C33_filename (f : bytes) : f <> [] ->
  exists n, file_name f n /\ get_filename (Some f) = Some n /\ forall n', file_name f n' -> n' = n.
Proof.
  intro Hf. destruct (file_name_exists f) as (n & Hn). exists n. pose proof (file_name_get Hf Hn) as E. split; [exact Hn|]. split; [exact E|].
  intros n' Hn'. pose proof (file_name_get Hf Hn') as E'. congruence.
Qed.
Print Assumptions C33_filename.
(* Every post loaded from a file has it. *)
Theorem C33_variable contents fuel conf f n t : f <> [] -> file_name f n ->
  source_parse_from_file contents fuel conf f = Ok (Loaded t) -> trie_lookup t (B "FILENAME") = Some n.
Proof.
  intros Hf Hn. unfold source_parse_from_file. destruct (contents f); [|discriminate].
  destruct (source_parse _ _ _) as [[t'|e]| |]; cbn [rbind]; try discriminate. rewrite (file_name_get Hf Hn).
  intro E. injection E as <-. rewrite trie_lookup_insert by (apply nn; reflexivity). rewrite beq_refl. reflexivity.
Qed.
Print Assumptions C33_variable.
Example C33_example : file_name (B "src/posts/a.b.txt") (B "a.b") /\ get_filename (Some (B "src/posts/a.b.txt")) = Some (B "a.b").
Proof.
  split; [|vm_compute; reflexivity]. exists (B "src/posts/"), (B ".txt"). split; [reflexivity|]. split.
  - right. exists (B "src/posts"), "/"%char. split; [reflexivity|left; reflexivity].
  - split; [|right; exists (B "txt"); split; [reflexivity|intro H; vm_compute in H; intuition discriminate]].
    repeat (apply Forall_cons; [intros [X|X]; discriminate X|]). apply Forall_nil.
Qed.
(* a file whose only dot is the first byte has an empty name *)
Example C33_hidden : get_filename (Some (B "posts/.txt")) = Some [].
Proof. vm_compute. reflexivity. Qed.

(* one page *)
Lemma listing_page conf qs s page n : trie_lookup conf (B "FILTER_PAGE") = Some s -> long_int s page -> 1 <= page ->
  per_page_of conf n -> 1 <= n < 2 ^ 63 -> (page - 1) * n < 2 ^ 63 -> Z.of_nat (length qs) < 2 ^ 24 ->
  exists listed conf',
    let all := pages (Z.to_nat n) listed in
    let rv := nth (Z.to_nat (page - 1)) all [] in
    let last := Z.of_nat (length all) in
    listing conf qs = Ok (rv, conf') /\
    picked (kept_by (trie_lookup conf (B "FILTER_TAG"))) qs listed /\
    first_last_set conf rv conf' /\
    (exists d, numeral page d /\ trie_lookup conf' (B "CURRENT_PAGE") = Some d) /\
    (if 1 <? page then exists d, numeral (page - 1) d /\ trie_lookup conf' (B "PREVIOUS_PAGE") = Some d
     else trie_lookup conf' (B "PREVIOUS_PAGE") = trie_lookup conf (B "PREVIOUS_PAGE")) /\
    (if page <? last then exists d, numeral (page + 1) d /\ trie_lookup conf' (B "NEXT_PAGE") = Some d
     else trie_lookup conf' (B "NEXT_PAGE") = trie_lookup conf (B "NEXT_PAGE")) /\
    (if page <=? last then trie_lookup conf' (B "FIRST_PAGE") = Some (B "1")
     else trie_lookup conf' (B "FIRST_PAGE") = trie_lookup conf (B "FIRST_PAGE")) /\
    (if 0 <? last then exists d, numeral last d /\ trie_lookup conf' (B "LAST_PAGE") = Some d
     else trie_lookup conf' (B "LAST_PAGE") = trie_lookup conf (B "LAST_PAGE")) /\
    forall k, no_nul k -> ~ In k listing_vars -> ~ In k page_vars -> trie_lookup conf' k = trie_lookup conf k.
Proof.
  intros Hp Hpage H1 Hn Hn1 Hov Hlen.
  set (ft := trie_lookup conf (B "FILTER_TAG")). set (listed := filter (tag_found ft) qs).
  assert (Ll : (length listed <= length qs)%nat) by (unfold listed; clear; induction qs as [|x m IH]; cbn [filter]; [lia|]; destruct (tag_found ft x); cbn [length]; lia).
  assert (Elast : last_page (Z.of_nat (length listed)) n = Ok (Z.of_nat (length (pages (Z.to_nat n) listed)))).
  { rewrite last_page_exact by lia. unfold pages. rewrite chop_length by lia. f_equal. rewrite Nat2Z.inj_div. f_equal; lia. }
  rewrite (@listing_paged conf qs s page n _ Hp Hpage Hn ltac:(lia) ltac:(lia) Elast). fold ft listed. cbn [rbind].
  replace (Z.max 1 page) with page by lia.
  assert (Erv : nth (Z.to_nat (page - 1)) (pages (Z.to_nat n) listed) [] =
    firstn (Z.to_nat n) (skipn (Z.to_nat ((page - 1) * n)) listed)).
  { unfold pages. rewrite chop_nth by lia. f_equal. f_equal. rewrite Z2Nat.inj_mul by lia. reflexivity. }
  set (rv := nth (Z.to_nat (page - 1)) (pages (Z.to_nat n) listed) []) in *. rewrite <- Erv.
  set (last := Z.of_nat (length (pages (Z.to_nat n) listed))) in *.
  assert (Hlast : 0 <= last < 2 ^ 24).
  { split; [lia|]. unfold last, pages. rewrite chop_length by lia.
    assert ((length listed + (Z.to_nat n - 1)) / Z.to_nat n <= length listed)%nat; [|lia].
    destruct (length listed) as [|m]; [rewrite Nat.div_small by lia; lia|]. apply Nat.div_le_upper_bound; [lia|]. nia. }
  pose proof (paged_conf_ok conf rv page last) as (F1 & F2 & F3 & F4 & F5 & F6 & F7).
  exists listed, (paged_conf conf rv page last). cbv zeta. fold rv. fold last.
  split; [reflexivity|]. split; [apply picked_filter; apply tag_found_spec|]. split; [exact F1|].
  split; [eexists; split; [apply print_numeral; exact H1|exact F2]|]. split.
  { rewrite F3. destruct (Z.ltb_spec 1 page); [|reflexivity]. eexists. split; [apply print_numeral; lia|reflexivity]. }
  split. { rewrite F4. destruct (Z.ltb_spec page last); [|reflexivity]. eexists. split; [apply print_numeral; lia|reflexivity]. }
  split.
  { rewrite F5. assert (Hne : Nat.ltb 0 (length rv) = (page <=? last)).
    { destruct (Z.leb_spec page last) as [L|L].
      - apply Nat.ltb_lt. destruct (@chop_sizes _ (Z.to_nat n) ltac:(lia) (length listed) listed ltac:(lia)) as [G _].
        rewrite Forall_forall in G. apply G. apply nth_In. fold (pages (Z.to_nat n) listed). lia.
      - unfold rv. rewrite nth_overflow by lia. reflexivity. }
    rewrite Hne. destruct (page <=? last); reflexivity. }
  split; [|exact F7]. rewrite F6. destruct (Z.ltb_spec 0 last); [|reflexivity]. eexists.
  split; [|reflexivity]. rewrite to_int_small by lia. apply print_numeral. lia.
Qed.

(* ---- C12, C35, C36, C56: the listing ---- *)
Section Files.
Variable contents : bytes -> option bytes.
Variable mktime : tm -> tm.
Variable strftime : bytes -> tm -> option bytes.
Variable fuel : nat.
(* [seconds t] is the time_t of the date [t]: what strftime prints for %s *)
Definition clock (seconds : tm -> Z) : Prop := forall t, - 2 ^ 63 <= seconds t < 2 ^ 63 /\
  exists s, strftime (B "%s") (mktime t) = Some s /\ written (seconds t) s.
(* the files parse to these posts *)
Definition posts (conf : trie bytes) : list bytes -> list (trie bytes) -> Prop :=
  Forall2 (fun f p => source_parse_from_file contents fuel conf f = Ok (Loaded p)).
Notation parse_files := (source_parse_from_files contents mktime strftime fuel).

Lemma clock_parts seconds : clock seconds -> (forall t, exists s, strftime (B "%s") (mktime t) = Some s /\ written (seconds t) s) /\
  forall t, - 2 ^ 63 <= seconds t < 2 ^ 63.
Proof. intro H. split; intro t; apply H. Qed.

(* All posts, in the order asked for, reduced to those with the tag asked for. *)
Theorem C35_listing seconds conf l ps (sort reverse : bool) : clock seconds -> posts conf l ps ->
  (sort = true <-> enabled conf (B "FILTER_SORT")) -> (reverse = true <-> enabled conf (B "FILTER_REVERSE")) ->
  uniform ps -> (sort = true -> Forall (fun p => exists z, dated seconds p z) ps /\ within_68_years seconds ps) ->
  trie_lookup conf (B "FILTER_PAGE") = None ->
  exists qs rv conf', parse_files conf l = Ok (Loaded (rv, conf')) /\
    arranged seconds sort reverse ps qs /\ picked (kept_by (trie_lookup conf (B "FILTER_TAG"))) qs rv /\
    first_last_set conf rv conf' /\
    forall k, no_nul k -> ~ In k listing_vars -> trie_lookup conf' k = trie_lookup conf k.
Proof.
  intros Hc Hl Hs Hr Hu Hd Hp. destruct (clock_parts Hc) as [K1 K2]. unfold source_parse_from_files.
  pose proof (enabled_bool Hs) as Es. pose proof (enabled_bool Hr) as Er.
  destruct (@gather_ok contents mktime strftime fuel conf seconds K1 K2 l ps Hl Hu) as (qs & E & H).
  { unfold sorting. rewrite Es. intro X. destruct (Hd X) as [D1 D2]. split; [|exact D2]. eapply Forall_impl; [|exact D1].
    intros p (z & Hz) X'. unfold dated in Hz. congruence. }
  unfold sorting, reversing in H. rewrite Es, Er in H. rewrite E. cbn [rbind]. rewrite (@listing_all conf qs Hp). cbn [rbind].
  eexists qs, _, _. split; [reflexivity|]. split; [exact H|]. split; [apply picked_filter; apply tag_found_spec|]. apply first_last_ok.
Qed.

(* A mix of posts with and without date is an error, and so are a file that cannot
   be loaded and, when sorting, a post without a valid date. *)
Theorem C36_mixed_rejected seconds conf l ps : clock seconds -> posts conf l ps -> ~ uniform ps ->
  exists e, parse_files conf l = Ok (Failed e).
Proof.
  intros Hc Hl Hu. destruct (clock_parts Hc) as [K1 K2]. unfold source_parse_from_files.
  destruct (@gather_mixed contents mktime strftime fuel conf seconds K1 l ps Hl Hu) as (e & E). rewrite E. exists e. reflexivity.
Qed.
Theorem C36_sort_needs_dates seconds conf l ps p : clock seconds -> posts conf l ps -> enabled conf (B "FILTER_SORT") ->
  In p ps -> (forall z, ~ dated seconds p z) -> exists e, parse_files conf l = Ok (Failed e).
Proof.
  intros Hc Hl Hs Hp Hd. destruct (clock_parts Hc) as [K1 K2]. unfold source_parse_from_files.
  destruct (@gather_undated contents mktime strftime fuel conf seconds K1 l ps Hl) as (e & E).
  - apply enabled_spec. exact Hs.
  - intro H. rewrite Forall_forall in H. specialize (H p Hp). unfold has_time in H. unfold dated in Hd.
    destruct (time_of seconds p) as [z|]; [apply (Hd z); reflexivity|congruence].
  - rewrite E. exists e. reflexivity.
Qed.
Theorem C36_unreadable_rejected conf l ps f e r : posts conf l ps -> source_parse_from_file contents fuel conf f = Ok (Failed e) ->
  exists e', parse_files conf (l ++ f :: r) = Ok (Failed e').
Proof.
  intros Hl Hf. unfold source_parse_from_files.
  destruct (@gather_unreadable contents mktime strftime fuel conf l ps f e r Hl Hf) as (e' & E). rewrite E. exists e'. reflexivity.
Qed.

(* ---- C34: the same with pages ---- *)
Theorem C34_page seconds conf l ps (sort reverse : bool) s page n : clock seconds -> posts conf l ps ->
  (sort = true <-> enabled conf (B "FILTER_SORT")) -> (reverse = true <-> enabled conf (B "FILTER_REVERSE")) ->
  uniform ps -> (sort = true -> Forall (fun p => exists z, dated seconds p z) ps /\ within_68_years seconds ps) ->
  trie_lookup conf (B "FILTER_PAGE") = Some s -> long_int s page -> 1 <= page ->
  per_page_of conf n -> 1 <= n < 2 ^ 63 -> (page - 1) * n < 2 ^ 63 -> Z.of_nat (length ps) < 2 ^ 24 ->
  exists qs listed conf', 
    let all := pages (Z.to_nat n) listed in
    let rv := nth (Z.to_nat (page - 1)) all [] in
    let last := Z.of_nat (length all) in
    parse_files conf l = Ok (Loaded (rv, conf')) /\
    arranged seconds sort reverse ps qs /\ picked (kept_by (trie_lookup conf (B "FILTER_TAG"))) qs listed /\
    first_last_set conf rv conf' /\
    (exists d, numeral page d /\ trie_lookup conf' (B "CURRENT_PAGE") = Some d) /\
    (if 1 <? page then exists d, numeral (page - 1) d /\ trie_lookup conf' (B "PREVIOUS_PAGE") = Some d
     else trie_lookup conf' (B "PREVIOUS_PAGE") = trie_lookup conf (B "PREVIOUS_PAGE")) /\
    (if page <? last then exists d, numeral (page + 1) d /\ trie_lookup conf' (B "NEXT_PAGE") = Some d
     else trie_lookup conf' (B "NEXT_PAGE") = trie_lookup conf (B "NEXT_PAGE")) /\
    (if page <=? last then trie_lookup conf' (B "FIRST_PAGE") = Some (B "1")
     else trie_lookup conf' (B "FIRST_PAGE") = trie_lookup conf (B "FIRST_PAGE")) /\
    (if 0 <? last then exists d, numeral last d /\ trie_lookup conf' (B "LAST_PAGE") = Some d
     else trie_lookup conf' (B "LAST_PAGE") = trie_lookup conf (B "LAST_PAGE")) /\
    forall k, no_nul k -> ~ In k listing_vars -> ~ In k page_vars -> trie_lookup conf' k = trie_lookup conf k.
Proof.
  intros Hc Hl Hs Hr Hu Hd Hp Hpage H1 Hn Hn1 Hov Hlen. destruct (clock_parts Hc) as [K1 K2]. unfold source_parse_from_files.
  pose proof (enabled_bool Hs) as Es. pose proof (enabled_bool Hr) as Er.
  destruct (@gather_ok contents mktime strftime fuel conf seconds K1 K2 l ps Hl Hu) as (qs & E & H).
  { unfold sorting. rewrite Es. intro X. destruct (Hd X) as [D1 D2]. split; [|exact D2]. eapply Forall_impl; [|exact D1].
    intros p (z & Hz) X'. unfold dated in Hz. congruence. }
  unfold sorting, reversing in H. rewrite Es, Er in H.
  assert (Lq : length qs = length ps).
  { unfold arranged in H. destruct sort.
    - destruct H as (ss & P1 & _ & _ & P2). rewrite <- (Forall2_length P2). symmetry. apply Permutation_length. exact P1.
    - rewrite H. destruct reverse; [apply rev_length|reflexivity]. }
  destruct (@listing_page conf qs s page n Hp Hpage H1 Hn Hn1 Hov ltac:(rewrite Lq; exact Hlen)) as (listed & conf' & G1 & G2). exists qs, listed, conf'. cbv zeta in *.
  rewrite E. cbn [rbind]. rewrite G1. cbn [rbind]. split; [reflexivity|]. split; [exact H|exact G2].
Qed.

(* A page size of zero, or less, is undefined behaviour whatever the posts are. *)
Theorem C34_no_size_refuted conf sources s n : trie_lookup conf (B "FILTER_PAGE") = Some s -> per_page_of conf n -> n <= 0 ->
  listing conf sources = UB.
Proof.
  intros Hp Hn Hn0. unfold listing. rewrite Hp.
  assert (E2 : fst (strtol match trie_lookup conf (B "FILTER_PER_PAGE") with Some p => p | None => B "10" end) = n).
  { unfold per_page_of in Hn. destruct (trie_lookup conf (B "FILTER_PER_PAGE")); [rewrite (long_strtol Hn); reflexivity|lia]. }
  rewrite E2. replace (if n <? 0 then 0 else n) with 0 by (destruct (Z.ltb_spec n 0); lia).
  rewrite Z.mul_0_r. change (0 <=? 2 ^ 63 - 1) with true. cbn [rbind]. change (0 + 0) with 0. change (0 mod 2 ^ 64) with 0.
  destruct (select _ _ _ _ _ _ _). reflexivity.
Qed.
(* A page number times the page size that does not fit a long is undefined too. *)
Theorem C34_overflow_refuted conf sources s page n : trie_lookup conf (B "FILTER_PAGE") = Some s -> long_int s page ->
  per_page_of conf n -> 1 <= page -> 0 <= n -> 2 ^ 63 <= (page - 1) * n -> listing conf sources = UB.
Proof.
  intros Hp Hpage Hn H1 H0 Hov. unfold listing. rewrite Hp, (long_strtol Hpage). cbn [fst].
  assert (E2 : fst (strtol match trie_lookup conf (B "FILTER_PER_PAGE") with Some p => p | None => B "10" end) = n).
  { unfold per_page_of in Hn. destruct (trie_lookup conf (B "FILTER_PER_PAGE")); [rewrite (long_strtol Hn); reflexivity|rewrite Hn; reflexivity]. }
  rewrite E2. destruct (Z.leb_spec page 0); [lia|]. destruct (Z.ltb_spec n 0); [lia|].
  destruct (Z.leb_spec ((page - 1) * n) (2 ^ 63 - 1)); [lia|]. reflexivity.
Qed.
End Files.
Print Assumptions C35_listing.
Print Assumptions C36_mixed_rejected.
Print Assumptions C36_sort_needs_dates.
Print Assumptions C36_unreadable_rejected.
Print Assumptions C34_page.
Print Assumptions C34_no_size_refuted.
Print Assumptions C34_overflow_refuted.

(* From 2^24 + 1 posts on the last page can get lost: the count is rounded to a
   float. *)
Theorem C34_rounding_refuted : exists conf sources rv conf', trie_lookup conf (B "FILTER_TAG") = None /\
  trie_lookup conf (B "FILTER_PAGE") = Some (B "1") /\ trie_lookup conf (B "FILTER_PER_PAGE") = Some (B "1") /\
  listing conf sources = Ok (rv, conf') /\ Z.of_nat (length (pages 1 sources)) = 16777217 /\
  trie_lookup conf' (B "LAST_PAGE") = Some (B "16777216").
Proof.
  set (conf := trie_insert (trie_insert trie_new (B "FILTER_PAGE") (B "1")) (B "FILTER_PER_PAGE") (B "1")).
  set (N := Z.to_nat 16777217). assert (HN : Z.of_nat N = 16777217) by (unfold N; rewrite Z2Nat.id by lia; reflexivity).
  exists conf, (repeat trie_new N).
  assert (E1 : trie_lookup conf (B "FILTER_PAGE") = Some (B "1")) by (vm_compute; reflexivity).
  assert (E2 : trie_lookup conf (B "FILTER_PER_PAGE") = Some (B "1")) by (vm_compute; reflexivity).
  assert (E3 : trie_lookup conf (B "FILTER_TAG") = None) by (vm_compute; reflexivity).
  assert (L1 : long_int (B "1") 1).
  { split; [|lia]. exists 1%nat, (B "1"). split; [|left; split; reflexivity]. split; [discriminate|].
    split; [apply Forall_cons; [reflexivity|apply Forall_nil]|reflexivity]. }
  assert (Hf : filter (tag_found (trie_lookup conf (B "FILTER_TAG"))) (repeat trie_new N) = repeat trie_new N).
  { rewrite E3. clear. generalize N as m. induction m as [|m IH]; [reflexivity|]. cbn [repeat filter tag_found]. rewrite IH. reflexivity. }
  assert (Hp : per_page_of conf 1) by (unfold per_page_of; rewrite E2; exact L1).
  assert (Hlast : last_page (Z.of_nat (length (filter (tag_found (trie_lookup conf (B "FILTER_TAG"))) (repeat trie_new N)))) 1 = Ok 16777216).
  { rewrite Hf, repeat_length, HN. vm_compute. reflexivity. }
  pose proof (@listing_paged conf (repeat trie_new N) (B "1") 1 1 16777216 E1 L1 Hp ltac:(lia) ltac:(lia) Hlast) as E.
  eexists _, _. split; [exact E3|]. split; [exact E1|]. split; [exact E2|]. split; [exact E|]. split.
  - unfold pages. rewrite chop_length by lia. rewrite Nat2Z.inj_div. rewrite repeat_length.
    change (Z.of_nat 1) with 1. rewrite Z.div_1_r. lia.
  - destruct (paged_conf_ok conf (firstn (Z.to_nat 1) (skipn (Z.to_nat ((Z.max 1 1 - 1) * 1)) (filter (tag_found (trie_lookup conf (B "FILTER_TAG"))) (repeat trie_new N)))) (Z.max 1 1) 16777216)
      as (_ & _ & _ & _ & _ & F & _). rewrite F. vm_compute. reflexivity.
Qed.
Print Assumptions C34_rounding_refuted.

(* The pages of a listing: put together they are the listing, none is empty or
   larger than asked for, and all but the last are full. *)
Theorem C34_partition (A : Type) (n : nat) (l : list A) : (0 < n)%nat ->
  concat (pages n l) = l /\ Forall (fun x => 0 < length x <= n)%nat (pages n l) /\
  Forall (fun x => length x = n) (removelast (pages n l)).
Proof.
  intro Hn. split; [apply chop_concat; lia|]. apply chop_sizes; lia.
Qed.
Print Assumptions C34_partition.

(* ---- C12 ---- *)
(* [C35_listing] and [C34_page] with FILTER_SORT, spelled out: newest first, or
   oldest first with FILTER_REVERSE. Missing from the full claim: posts further
   than 2^31 seconds apart, see below. *)
Theorem C12_sorted_partial contents mktime strftime fuel seconds conf l ps (reverse : bool) :
  clock mktime strftime seconds -> posts contents fuel conf l ps ->
  enabled conf (B "FILTER_SORT") -> (reverse = true <-> enabled conf (B "FILTER_REVERSE")) ->
  trie_lookup conf (B "FILTER_TAG") = None -> trie_lookup conf (B "FILTER_PAGE") = None ->
  Forall (fun p => exists z, dated seconds p z) ps -> within_68_years seconds ps ->
  exists ss rv conf', source_parse_from_files contents mktime strftime fuel conf l = Ok (Loaded (rv, conf')) /\
    Permutation ps ss /\ StronglySorted (before seconds reverse) ss /\
    (forall z, filter (at_time seconds z) ss = filter (at_time seconds z) ps) /\ Forall2 same_post ss rv.
Proof.
  intros Hc Hl Hs Hr Ht Hp Hd Hw.
  destruct (@C35_listing contents mktime strftime fuel seconds conf l ps true reverse Hc Hl (conj (fun _ => Hs) (fun _ => eq_refl)) Hr) as (qs & rv & conf' & E & Ha & Hk & _).
  - left. eapply Forall_impl; [|exact Hd]. intros p (z & Hz). unfold dated, time_of in Hz. unfold has_date.
    destruct (trie_lookup p (B "DATE")); congruence.
  - auto.
  - exact Hp.
  - destruct Ha as (ss & A1 & A2 & A3 & A4). exists ss, rv, conf'. split; [exact E|]. split; [exact A1|]. split; [exact A2|]. split; [exact A3|].
    rewrite Ht in Hk. assert (rv = qs) as ->; [|exact A4]. clear -Hk. induction Hk as [|x l m Hx _ IH|x l m Hx _ IH]; [reflexivity|congruence|exfalso; apply Hx; exact I].
Qed.
Print Assumptions C12_sorted_partial.

(* ---- a concrete system ---- *)
(* seconds since the epoch of a date in UTC *)
Definition utc (t : tm) : Z :=
  let y := tm_year t + 1900 in let m := tm_mon t + 1 in
  let y := if m <=? 2 then y - 1 else y in
  let era := y / 400 in let yoe := y - era * 400 in
  let doy := (153 * (if 2 <? m then m - 3 else m + 9) + 2) / 5 + tm_mday t - 1 in
  let doe := yoe * 365 + yoe / 4 - yoe / 100 + doy in
  (era * 146097 + doe - 719468) * 86400 + tm_hour t * 3600 + tm_min t * 60 + tm_sec t.
Definition a_strftime (f : bytes) (t : tm) : option bytes := Some (print_z (Z.max (- 2 ^ 63) (Z.min (2 ^ 63 - 1) (utc t)))).
Definition a_file (date : bytes) : bytes := B "DATE: " ++ date ++ [LF] ++ B "---" ++ [LF] ++ B "foo" ++ [LF].
Definition files (f : bytes) : option bytes :=
  if beq f (B "old.txt") then Some (a_file (B "1900-01-01"))
  else if beq f (B "new.txt") then Some (a_file (B "2020-01-01"))
  else if beq f (B "a.txt") then Some (a_file (B "2020-02-01"))
  else if beq f (B "b.txt") then Some (a_file (B "2020-03-01"))
  else None.
Definition sorted_conf : trie bytes := trie_insert trie_new (B "FILTER_SORT") (B "yes").
Definition names (r : res (loaded (list (trie bytes) * trie bytes))) : list (option bytes) :=
  match r with Ok (Loaded (l, _)) => map (fun p => trie_lookup p (B "FILENAME")) l | _ => [] end.

(* A post of 1900 is listed before one of 2020: the difference is truncated to 32
   bits. *)
Theorem C12_refuted : exists contents mktime strftime fuel conf l ps rv conf' seconds,
  clock mktime strftime seconds /\ posts contents fuel conf l ps /\ enabled conf (B "FILTER_SORT") /\
  trie_lookup conf (B "FILTER_REVERSE") = None /\
  source_parse_from_files contents mktime strftime fuel conf l = Ok (Loaded (rv, conf')) /\
  exists a b x y, rv = [a; b] /\ dated seconds a x /\ dated seconds b y /\ x < y.
Proof.
  exists files, (fun t => t), a_strftime, 9%nat, sorted_conf, [B "new.txt"; B "old.txt"]. do 3 eexists.
  exists (fun t => Z.max (- 2 ^ 63) (Z.min (2 ^ 63 - 1) (utc t))). split.
  { intro t. split; [lia|]. eexists. split; [reflexivity|apply print_written]. }
  split. { apply Forall2_cons; [vm_compute; reflexivity|]. apply Forall2_cons; [vm_compute; reflexivity|]. apply Forall2_nil. }
  split. { exists (B "yes"). split; [vm_compute; reflexivity|]. cbn. tauto. }
  split; [vm_compute; reflexivity|]. split; [vm_compute; reflexivity|].
  do 4 eexists. split; [reflexivity|]. split; [vm_compute; reflexivity|]. split; [vm_compute; reflexivity|]. lia.
Qed.
Print Assumptions C12_refuted.

Example C12_example : names (source_parse_from_files files (fun t => t) a_strftime 9 sorted_conf [B "a.txt"; B "b.txt"; B "new.txt"])
  = [Some (B "b"); Some (B "a"); Some (B "new")].
Proof. vm_compute. reflexivity. Qed.
Example C12_example_reverse :
  names (source_parse_from_files files (fun t => t) a_strftime 9 (trie_insert sorted_conf (B "FILTER_REVERSE") (B "ON")) [B "a.txt"; B "b.txt"; B "new.txt"])
  = [Some (B "new"); Some (B "a"); Some (B "b")].
Proof. vm_compute. reflexivity. Qed.
(* the hypotheses of the theorems hold there *)
Example C12_example_hyps : exists ps, posts files 9 sorted_conf [B "a.txt"; B "b.txt"; B "new.txt"] ps /\
  Forall (fun p => exists z, dated utc p z) ps /\ within_68_years utc ps.
Proof.
  eexists. split.
  { apply Forall2_cons; [vm_compute; reflexivity|]. apply Forall2_cons; [vm_compute; reflexivity|]. apply Forall2_cons; [vm_compute; reflexivity|]. apply Forall2_nil. }
  split.
  - repeat (apply Forall_cons; [eexists; vm_compute; reflexivity|]). apply Forall_nil.
  - intros p q x y Hp Hq Hx Hy. cbn [In] in Hp, Hq.
    repeat (destruct Hp as [Hp|Hp]; [|]); try contradiction; repeat (destruct Hq as [Hq|Hq]; [|]); try contradiction;
      rewrite <- Hp in Hx; rewrite <- Hq in Hy; vm_compute in Hx; vm_compute in Hy; injection Hx as <-; injection Hy as <-; reflexivity.
Qed.
Example C34_example :
  let conf := trie_insert (trie_insert trie_new (B "FILTER_PAGE") (B "2")) (B "FILTER_PER_PAGE") (B "2") in
  match source_parse_from_files files (fun t => t) a_strftime 9 conf [B "a.txt"; B "b.txt"; B "new.txt"] with
  | Ok (Loaded (l, c)) => (map (fun p => trie_lookup p (B "FILENAME")) l, map (trie_lookup c) page_vars)
  | _ => ([], [])
  end = ([Some (B "new")], [Some (B "2"); Some (B "1"); None; Some (B "1"); Some (B "2")]).
Proof. vm_compute. reflexivity. Qed.
Example C35_example : has_tag (B "foo bar  baz") (B "bar") /\ ~ has_tag (B "foo bar  baz") (B "ba") /\ 
  tag_found (Some (B "ba")) (trie_insert trie_new (B "TAGS") (B "foo bar  baz")) = false.
Proof.
  split; [|split; [|vm_compute; reflexivity]].
  - split; [discriminate|]. split; [intro H; vm_compute in H; intuition discriminate|]. exists (B "foo "), (B "  baz"). split; [reflexivity|].
    split; [right; exists (B "foo"); reflexivity|right; exists (B " baz"); reflexivity].
  - intro H. assert (K : tagged (B "ba") (trie_insert trie_new (B "TAGS") (B "foo bar  baz"))) by (exists (B "foo bar  baz"); split; [vm_compute; reflexivity|exact H]).
    apply (tag_found_spec (Some (B "ba"))) in K. vm_compute in K. discriminate.
Qed.
(* one dated post, one without *)
Example C36_example : 
  source_parse_from_files (fun f => if beq f (B "x") then Some (B "A: b" ++ [LF] ++ B "---" ++ [LF] ++ B "foo" ++ [LF]) else files f)
    (fun t => t) a_strftime 9 trie_new [B "a.txt"; B "x"] = Ok (Failed LMixed).
Proof. vm_compute. reflexivity. Qed.
