(* What blogc_source_parse makes of a source file. *)
From Coq Require Import ZArith.
From Verif Require Import Base Utils UtilsProofs Trie TrieProofs Toctree ToctreeSpec ToctreeProofs Content InlineSpec InlineProofs
  BlockSpec BlockProofs BlockOut BlockLoop DocSpec BlockFwd BlockLine BlockDoc ContentSpec ContentText Source SourceSpec.
#[local] Arguments B : simpl never.

Section Run.
Variable fuel : nat.
Variable src : bytes.
Variable md : Z.

Notation loop := (source_loop fuel src md).

Lemma loop_cons c r cur s : loop (c :: r) cur s =
  do x <- source_step fuel src md cur c s ; match x with Good s => loop r (cur + 1) s | Bad e => Ok (Bad e) end.
Proof. reflexivity. Qed.

(* bytes that leave the state as it is *)
Lemma loop_stay st (P : ascii -> Prop) : (forall c cur a b d, P c -> source_step fuel src md cur c (Sst st a b d) = Ok (Good (Sst st a b d))) ->
  forall x r cur a b d, Forall P x -> loop (x ++ r) cur (Sst st a b d) = loop r (cur + length x) (Sst st a b d).
Proof.
  intro H. induction x as [|c x IH]; intros r cur a b d Hx.
  - cbn [app length]. rewrite Nat.add_0_r. reflexivity.
  - rewrite Forall_cons_iff in Hx. destruct Hx as [Hc Hx]. cbn [app length]. rewrite loop_cons, H by assumption. cbn [rbind].
    rewrite IH by assumption. f_equal. lia.
Qed.
Lemma loop_gap g r cur a b d : gap g -> loop (g ++ r) cur (Sst SStart a b d) = loop r (cur + length g) (Sst SStart a b d).
Proof.
  apply loop_stay. intros c cu a' b' d' Hc. cbn [source_step].
  assert (E : (c == SP) || (c == TAB) || (c == LF) || (c == CR) = true).
  { rewrite !orb_true_iff, !eqb_true. cbn [In] in Hc. intuition. }
  rewrite E. reflexivity.
Qed.
Lemma loop_key x r cur a b d : Forall (fun d => is_upper d = true \/ is_digit d = true \/ d = "_"%char) x ->
  loop (x ++ r) cur (Sst SKey a b d) = loop r (cur + length x) (Sst SKey a b d).
Proof.
  apply loop_stay. intros c cu a' b' d' Hc. cbn [source_step].
  assert (E : is_upper c || is_digit c || (c == "_"%char) = true).
  { rewrite !orb_true_iff, !eqb_true. tauto. }
  rewrite E. reflexivity.
Qed.
Lemma loop_value x r cur a b d : on_line x -> loop (x ++ r) cur (Sst SValue a b d) = loop r (cur + length x) (Sst SValue a b d).
Proof.
  apply loop_stay. intros c cu a' b' d' [Hc _]. cbn [source_step].
  assert (E : is_nl c = false) by (destruct (is_nl c) eqn:E; [apply is_nl_iff in E; contradiction|reflexivity]).
  rewrite E. reflexivity.
Qed.

Lemma existsb_forbidden k : existsb (beq k) forbidden = true <-> In k reserved.
Proof.
  rewrite existsb_exists. unfold forbidden, reserved. split.
  - intros (x & Hx & E). apply beq_eq in E. subst x. cbn [In] in *. intuition.
  - intro H. exists k. split; [|apply beq_refl]. cbn [In] in *. intuition.
Qed.
Lemma first_upper c : is_upper c = true -> (c == SP) || (c == TAB) || (c == LF) || (c == CR) = false.
Proof.
  intro H. pose proof (@forall_bytes (fun c => implb (is_upper c) (negb ((c == SP) || (c == TAB) || (c == LF) || (c == CR)))) eq_refl c) as K.
  cbv beta in K. rewrite H in K. apply negb_true_iff, K.
Qed.
Lemma nlb c : newline_byte c -> is_nl c = true.
Proof. apply is_nl_iff. Qed.

Lemma mid_sub (a b c : bytes) : firstn (length (a ++ b) - length a) (skipn (length a) (a ++ b ++ c)) = b.
Proof.
  rewrite skipn_app, skipn_all2, Nat.sub_diag by lia. cbn [skipn app].
  replace (length (a ++ b) - length a) with (length b) by (rewrite app_length; lia).
  rewrite firstn_app, Nat.sub_diag, firstn_all, app_nil_r. reflexivity.
Qed.
Lemma name_no_nul k : name k -> no_nul k.
Proof.
  intros (c & r & -> & Hc & Hr) [E|H]; [rewrite E in Hc; discriminate|]. rewrite Forall_forall in Hr. apply Hr in H.
  destruct H as [H|[H|H]]; discriminate.
Qed.

(* up to the colon *)
Lemma loop_name pre k r a kk t : name k -> src = pre ++ k ++ ":"%char :: r ->
  loop (k ++ ":"%char :: r) (length pre) (Sst SStart a kk t) =
  if in_dec (list_eq_dec ascii_dec) k reserved
  then Ok (Bad (SErr (B "'" ++ k ++ B "' variable is forbidden in source files. It will be set for you by the compiler.") None))
  else loop r (length (pre ++ k ++ [":"%char])) (Sst SValueStart (length pre) (Some k) t).
Proof.
  intros Hk Es. pose proof (name_no_nul Hk) as Hn. destruct Hk as (c & k' & -> & Hc & Hk').
  cbn [app]. rewrite loop_cons. cbn [source_step]. rewrite (first_upper Hc), Hc. cbn [rbind].
  rewrite loop_key by exact Hk'. rewrite loop_cons. cbn [source_step].
  change (is_upper ":"%char || is_digit ":"%char || (":"%char == "_"%char)) with false. rewrite eqb_refl. cbn iota.
  replace (length pre + 1 + length k') with (length (pre ++ c :: k')) by (rewrite app_length; cbn [length]; lia).
  unfold strndup. rewrite Es, (mid_sub pre (c :: k')). rewrite (cstr_id Hn).
  destruct (in_dec (list_eq_dec ascii_dec) (c :: k') reserved) as [Hi|Hi].
  - rewrite (proj2 (existsb_forbidden _) Hi). reflexivity.
  - destruct (existsb (beq (c :: k')) forbidden) eqn:E; [apply existsb_forbidden in E; contradiction|]. cbn [rbind].
    f_equal. rewrite !app_length. cbn [length]. rewrite app_length. cbn [length]. lia.
Qed.

Lemma loop_entry pre x r a t : entry_ok x -> src = pre ++ entry_src x ++ r ->
  exists a', loop (entry_src x ++ r) (length pre) (Sst SStart a None t) =
             loop r (length (pre ++ entry_src x)) (Sst SStart a' None (trie_insert t (e_key x) (trim (e_text x)))).
Proof.
  intros (H1 & H2 & H3 & H4 & H5) Es. destruct x as [g k w nl]. cbn [e_gap e_key e_text e_nl] in *. unfold entry_src in *.
  cbn [e_gap e_key e_text e_nl] in *. rewrite <- !app_assoc in *. cbn [app] in *. rewrite <- !app_assoc in *. cbn [app] in *.
  rewrite (loop_gap _ _ _ _ _ H1). rewrite <- app_length.
  rewrite loop_name with (k := k); [|exact H2|rewrite Es, <- app_assoc; reflexivity].
  destruct (in_dec _ k reserved); [contradiction|].
  set (p1 := (pre ++ g) ++ k ++ [":"%char]).
  destruct w as [|c w].
  - cbn [app]. rewrite loop_cons. cbn [source_step]. rewrite (nlb H5). cbn [negb rbind].
    exists (length (pre ++ g)). f_equal. unfold p1. rewrite !app_length; cbn [length app]; rewrite ?app_length; cbn [length]; lia.
  - cbn [app]. rewrite loop_cons. cbn [source_step]. pose proof H4 as H4'. unfold on_line in H4. rewrite Forall_cons_iff in H4. destruct H4 as [[Hc Hz] Hw].
    assert (E : is_nl c = false) by (destruct (is_nl c) eqn:E; [apply is_nl_iff in E; contradiction|reflexivity]).
    rewrite E. cbn [negb rbind]. rewrite (loop_value _ _ _ _ _ Hw). rewrite loop_cons. cbn [source_step]. rewrite (nlb H5). cbn [rbind].
    exists (length p1). f_equal; [unfold p1; rewrite !app_length; cbn [length app]; rewrite ?app_length; cbn [length]; lia|].
    f_equal. f_equal. rewrite <- trim_strip. f_equal. unfold strndup.
    replace (length p1 + 1 + length w) with (length (p1 ++ c :: w)) by (rewrite app_length; cbn [length]; lia).
    rewrite Es. replace (pre ++ g ++ k ++ ":"%char :: (c :: w) ++ nl :: r) with (p1 ++ (c :: w) ++ nl :: r)
      by (unfold p1; rewrite <- !app_assoc; reflexivity).
    rewrite mid_sub. apply cstr_id. exact (on_line_no_nul H4').
Qed.

Definition tries (l : list entry) (t : trie bytes) : trie bytes :=
  fold_left (fun t x => trie_insert t (e_key x) (trim (e_text x))) l t.
Lemma loop_entries : forall l pre r a t, Forall entry_ok l -> src = pre ++ entries_src l ++ r ->
  exists a', loop (entries_src l ++ r) (length pre) (Sst SStart a None t) =
             loop r (length (pre ++ entries_src l)) (Sst SStart a' None (tries l t)).
Proof.
  induction l as [|x l IH]; intros pre r a t Hl Es.
  - exists a. cbn. rewrite app_nil_r. reflexivity.
  - rewrite Forall_cons_iff in Hl. destruct Hl as [Hx Hl]. unfold entries_src in *. cbn [flat_map] in *. rewrite <- app_assoc in *.
    destruct (loop_entry (pre := pre) a t Hx Es) as (a1 & ->).
    destruct (IH (pre ++ entry_src x) r a1 (trie_insert t (e_key x) (trim (e_text x))) Hl) as (a2 & ->); [rewrite Es, <- app_assoc; reflexivity|].
    exists a2. cbn [tries fold_left]. rewrite <- app_assoc. reflexivity.
Qed.
Lemma loop_separator x r cur a k t : separator x -> loop (x ++ r) cur (Sst SStart a k t) = loop r (cur + length x) (Sst SContentStart a k t).
Proof.
  intros (n & nls & -> & Hne & Hn). cbn [repeat app]. rewrite loop_cons. cbn [source_step].
  change (("-"%char == SP) || ("-"%char == TAB) || ("-"%char == LF) || ("-"%char == CR)) with false. change (is_upper "-"%char) with false. rewrite eqb_refl. cbn [rbind].
  rewrite <- app_assoc. rewrite (@loop_stay SSep (fun c => c = "-"%char)).
  2:{ intros c cu a' b' d' ->. reflexivity. }
  2:{ apply Forall_forall. intros y Hy. apply repeat_spec in Hy. exact Hy. }
  destruct nls as [|c nls]; [contradiction|]. rewrite Forall_cons_iff in Hn. destruct Hn as [Hc Hn].
  cbn [app]. rewrite loop_cons. cbn [source_step].
  assert (E : (c == "-"%char) = false) by (destruct Hc as [-> | ->]; reflexivity). rewrite E, (nlb Hc). cbn [rbind].
  rewrite (@loop_stay SContentStart newline_byte); [| |exact Hn].
  2:{ intros d cu a' b' d' Hd. cbn [source_step]. rewrite (nlb Hd). reflexivity. }
  f_equal. cbn [length]. rewrite !app_length. cbn [length]. lia.
Qed.
(* the content is parsed at its last byte *)
Lemma loop_inner x cur a k t : cur + length x < length src ->
  forall r, loop (x ++ r) cur (Sst SContent a k t) = loop r (cur + length x) (Sst SContent a k t).
Proof.
  revert cur. induction x as [|c x IH]; intros cur H r.
  - cbn [app length]. rewrite Nat.add_0_r. reflexivity.
  - cbn [app length] in *. rewrite loop_cons. cbn [source_step]. 
    rewrite (proj2 (Nat.eqb_neq cur (length src - 1))) by lia. cbn [rbind]. rewrite IH by lia. f_equal. lia.
Qed.
Lemma loop_body pre x a k t : body x -> src = pre ++ x ->
  loop x (length pre) (Sst SContentStart a k t) = source_content fuel src md (length src - 1) (Sst SContent (length pre) k t).
Proof.
  intros (Hl & Hn & Hf) Es. destruct x as [|c x]; [cbn in Hl; lia|].
  rewrite loop_cons. cbn [source_step]. specialize (Hf c x eq_refl).
  assert (E : is_nl c = false) by (destruct (is_nl c) eqn:E; [apply is_nl_iff in E; contradiction|reflexivity]).
  rewrite E. cbn [rbind]. destruct (list_last_inv x) as [->|(x' & d & ->)]; [cbn in Hl; lia|].
  pose proof (f_equal (@length _) Es) as El. rewrite app_length in El. cbn [length] in El. rewrite app_length in El. cbn [length] in El.
  rewrite loop_inner by lia. rewrite loop_cons. cbn [source_step].
  rewrite (proj2 (Nat.eqb_eq _ (length src - 1))) by lia.
  replace (length pre + 1 + length x') with (length src - 1) by lia.
  destruct (source_content _ _ _ _ _) as [[s2|e2]| |]; reflexivity.
Qed.
End Run.

(* the whole file, as far as the content *)
Lemma parse_runs fuel md l g sep x : Forall entry_ok l -> gap g -> separator sep -> body x ->
  let src := entries_src l ++ g ++ sep ++ x in
  source_parse fuel src md =
  do r <- source_content fuel src md (length src - 1) (Sst SContent (length src - length x) None (tries l trie_new)) ;
  match r with Good s => source_finish (length src) s | Bad e => Ok (Bad e) end.
Proof.
  intros Hl Hg Hs Hx src. unfold source_parse.
  destruct (@loop_entries fuel src md l [] (g ++ sep ++ x) 0 trie_new Hl eq_refl) as (a & E).
  change sst0 with (Sst SStart 0 None (@trie_new bytes)). unfold src at 2. cbn [length app] in E. rewrite E.
  rewrite (loop_gap _ _ _ _ _ _ _ _ Hg), (loop_separator _ _ _ _ _ _ _ _ Hs).
  replace (length (entries_src l) + length g + length sep) with (length (entries_src l ++ g ++ sep)) by (rewrite !app_length; lia).
  rewrite (@loop_body fuel src md (entries_src l ++ g ++ sep) x); [|exact Hx|unfold src; rewrite <- !app_assoc; reflexivity].
  replace (length (entries_src l ++ g ++ sep)) with (length src - length x) by (unfold src; rewrite !app_length; lia). reflexivity.
Qed.

(* ---------- variables ---------- *)
Lemma tries_lookup k : no_nul k -> forall l t, Forall entry_ok l ->
  trie_lookup (tries l t) k = match assigned l k with Some v => Some v | None => trie_lookup t k end.
Proof.
  intro Hk. induction l as [|x l IH]; intros t Hl; [reflexivity|].
  rewrite Forall_cons_iff in Hl. destruct Hl as [(_ & Hx & _) Hl]. cbn [tries fold_left assigned].
  change (fold_left _ l ?t) with (tries l t). rewrite IH by exact Hl. destruct (assigned l k); [reflexivity|].
  rewrite trie_lookup_insert by (auto using name_no_nul).
  destruct (list_eq_dec ascii_dec (e_key x) k) as [->|Hne]; [rewrite beq_refl; reflexivity|].
  destruct (beq (e_key x) k) eqn:E; [apply beq_eq in E; contradiction|reflexivity].
Qed.

(* ---------- numbers ---------- *)
Lemma digits_nat : forall ds acc r, Forall (fun c => is_digit c = true) ds -> (match r with c :: _ => is_digit c = false | [] => True end) ->
  digits_value (ds ++ r) (Z.of_nat acc) =
  (Z.of_nat (fold_left (fun acc c => acc * 10 + (N.to_nat (nb c) - 48)) ds acc), r).
Proof.
  induction ds as [|c ds IH]; intros acc r Hd Hr.
  - cbn [app fold_left]. destruct r as [|c r]; cbn [digits_value]; [reflexivity|]. rewrite Hr. reflexivity.
  - rewrite Forall_cons_iff in Hd. destruct Hd as [Hc Hd]. cbn [app digits_value fold_left]. rewrite Hc.
    rewrite <- IH by assumption. f_equal.
    assert (48 <= nb c)%N by (unfold is_digit, in_range in Hc; rewrite andb_true_iff, !N.leb_le in Hc; cbn in Hc; lia). lia.
Qed.
Lemma integer_strtol m d : integer m d -> strtol m = (d, []) /\ to_int d = d.
Proof.
  intros (Hr & ds & n & (Hne & Hd & Hn) & Hm). split.
  2:{ unfold to_int. destruct (Z.ltb_spec d 0).
      - replace (d mod 2 ^ 32)%Z with (d + 2 ^ 32)%Z by (apply (Z.mod_unique _ _ (-1)); lia).
        destruct (Z.ltb_spec (d + 2 ^ 32) (2 ^ 31)); lia.
      - rewrite Z.mod_small by lia. destruct (Z.ltb_spec d (2 ^ 31)); lia. }
  assert (V : digits_value ds 0 = (Z.of_nat n, [])).
  { pose proof (@digits_nat ds 0 [] Hd I) as V. rewrite app_nil_r in V. rewrite Hn in V. exact V. }
  destruct ds as [|c ds]; [contradiction|]. rewrite Forall_cons_iff in Hd. destruct Hd as [Hc _].
  assert (S : isspace c = false /\ (c == "-"%char) = false /\ (c == "+"%char) = false).
  { pose proof (@forall_bytes (fun c => implb (is_digit c) (negb (isspace c) && negb (c == "-"%char) && negb (c == "+"%char))) eq_refl c) as K.
    cbv beta in K. rewrite Hc in K. cbn [implb] in K. rewrite !andb_true_iff, !negb_true_iff in K. tauto. }
  destruct S as (S1 & S2 & S3). unfold strtol.
  assert (CL : forall z, (- 2 ^ 31 <= z < 2 ^ 31)%Z -> clamp_long z = z) by (intros; unfold clamp_long; lia).
  destruct Hm as [(-> & ->)|[(-> & ->)|(-> & ->)]].
  - cbn [skip_space]. rewrite S1. cbn iota. rewrite S2, S3. cbn iota. rewrite Hc, V, CL by exact Hr. reflexivity.
  - cbn [skip_space]. change (isspace "+"%char) with false. cbn iota. change ("+"%char == "-"%char) with false. rewrite eqb_refl. cbn iota.
    rewrite Hc, V, CL by exact Hr. reflexivity.
  - cbn [skip_space]. change (isspace "-"%char) with false. cbn iota. rewrite eqb_refl. cbn iota.
    rewrite Hc, V, CL by exact Hr. reflexivity.
Qed.

(* ---------- the content ---------- *)
Definition names_ne (a b : bytes) : Prop := beq a b = false.
Lemma lookup_opt t k v k' : no_nul k -> no_nul k' ->
  trie_lookup (opt_insert t k v) k' = if beq k k' then (match trie_lookup t k' with Some x => Some x | None => v end) else trie_lookup t k'.
Proof.
  intros Hk Hk'. unfold opt_insert. destruct v as [v|].
  - destruct (trie_lookup t k) as [x|] eqn:E.
    + destruct (beq k k') eqn:Eb; [apply beq_eq in Eb; subst k'; rewrite E; reflexivity|reflexivity].
    + rewrite trie_lookup_insert by assumption. destruct (beq k k') eqn:Eb; [apply beq_eq in Eb; subst k'; rewrite E; reflexivity|reflexivity].
  - destruct (beq k k'); [destruct (trie_lookup t k'); reflexivity|reflexivity].
Qed.

Section Content.
Variables (fuel : nat) (l : list entry) (g sep x : bytes) (md : Z) (b : bvars).
Hypothesis Hl : Forall entry_ok l.
Hypothesis Hg : gap g.
Hypothesis Hs : separator sep.
Hypothesis Hx : body x.
Let src := entries_src l ++ g ++ sep ++ x.
Let asked := match assigned l (B "TOCTREE") with None => true | Some _ => false end.
Hypothesis Hb : content_parse fuel (BO true true true asked) x None = Ok b.

Definition variables (t : trie bytes) (toc : option bytes) : Prop :=
  trie_lookup t (B "RAW_CONTENT") = Some x /\
  trie_lookup t (B "CONTENT") = Some (b_rv b) /\
  trie_lookup t (B "EXCERPT") = Some (if Nat.eqb (b_exc b) 0 then b_rv b else strndup (b_rv b) (b_exc b)) /\
  trie_lookup t (B "FIRST_HEADER") = match assigned l (B "FIRST_HEADER") with Some v => Some v | None => b_fh b end /\
  trie_lookup t (B "DESCRIPTION") = match assigned l (B "DESCRIPTION") with Some v => Some v | None => b_desc b end /\
  trie_lookup t (B "TOCTREE") = match assigned l (B "TOCTREE") with Some v => Some v | None => toc end /\
  forall k, no_nul k -> ~ In k set_for_you -> trie_lookup t k = assigned l k.

Let nn (k : string) : Prop := no_nul (B k).
Lemma raw_tmp : strndup (skipn (length src - length x) src) (length src - (length src - length x)) = x.
Proof.
  unfold strndup, src. rewrite !app_assoc. rewrite app_length. replace (_ + length x - length x) with (length ((entries_src l ++ g) ++ sep)) by lia.
  rewrite skipn_app, skipn_all, Nat.sub_diag. cbn [skipn app]. replace (_ + length x - _) with (length x) by lia.
  rewrite firstn_all. apply cstr_id, Hx.
Qed.
Definition rv1 : trie bytes :=
  opt_insert (opt_insert (trie_insert (tries l trie_new) (B "RAW_CONTENT") x) (B "FIRST_HEADER") (b_fh b)) (B "DESCRIPTION") (b_desc b).
Lemma rv1_lookup k : no_nul k -> trie_lookup rv1 k =
  if beq (B "RAW_CONTENT") k then Some x
  else match assigned l k with
       | Some v => Some v
       | None => if beq (B "FIRST_HEADER") k then b_fh b else if beq (B "DESCRIPTION") k then b_desc b else None
       end.
Proof.
  intro Hk. unfold rv1. rewrite !lookup_opt by (auto; apply no_nulb_spec; reflexivity).
  rewrite trie_lookup_insert by (auto; apply no_nulb_spec; reflexivity).
  rewrite tries_lookup by assumption. rewrite trie_lookup_new.
  destruct (beq (B "RAW_CONTENT") k) eqn:E1.
  - apply beq_eq in E1. subst k. reflexivity.
  - destruct (beq (B "FIRST_HEADER") k) eqn:E2.
    + apply beq_eq in E2. subst k. change (beq (B "DESCRIPTION") (B "FIRST_HEADER")) with false. cbn iota. destruct (assigned l (B "FIRST_HEADER")); reflexivity.
    + destruct (beq (B "DESCRIPTION") k); destruct (assigned l k); reflexivity.
Qed.
Definition done (toc : option bytes) : trie bytes :=
  trie_insert (trie_insert (match toc with None => rv1 | Some t => trie_insert rv1 (B "TOCTREE") t end) (B "CONTENT") (b_rv b))
    (B "EXCERPT") (if Nat.eqb (b_exc b) 0 then b_rv b else strndup (b_rv b) (b_exc b)).
Lemma done_vars toc : (forall v, assigned l (B "TOCTREE") = Some v -> toc = None) -> variables (done toc) toc.
Proof.
  intro Ht. unfold variables, done.
  assert (L : forall k, no_nul k -> trie_lookup (trie_insert (trie_insert (match toc with None => rv1 | Some t => trie_insert rv1 (B "TOCTREE") t end) (B "CONTENT") (b_rv b))
    (B "EXCERPT") (if Nat.eqb (b_exc b) 0 then b_rv b else strndup (b_rv b) (b_exc b))) k =
    if beq (B "EXCERPT") k then Some (if Nat.eqb (b_exc b) 0 then b_rv b else strndup (b_rv b) (b_exc b))
    else if beq (B "CONTENT") k then Some (b_rv b)
    else match toc with Some t => if beq (B "TOCTREE") k then Some t else trie_lookup rv1 k | None => trie_lookup rv1 k end).
  { intros k Hk. rewrite !trie_lookup_insert by (auto; apply no_nulb_spec; reflexivity).
    destruct toc; [rewrite trie_lookup_insert by (auto; apply no_nulb_spec; reflexivity)|]; reflexivity. }
  rewrite !L by (apply no_nulb_spec; reflexivity).
  rewrite !rv1_lookup by (apply no_nulb_spec; reflexivity).
  repeat match goal with |- context [beq (B ?p) (B ?q)] => let r := eval vm_compute in (beq (B p) (B q)) in change (beq (B p) (B q)) with r end. cbn iota.
  split; [destruct toc; reflexivity|]. split; [reflexivity|]. split; [reflexivity|]. split; [destruct toc; reflexivity|]. split; [destruct toc; reflexivity|].
  split.
  - destruct (assigned l (B "TOCTREE")) as [v|]; [rewrite (Ht v eq_refl); reflexivity|destruct toc; reflexivity].
  - intros k Hk Hn. rewrite L, rv1_lookup by exact Hk.
    assert (NE : forall q, In q set_for_you -> beq q k = false).
    { intros q Hq. destruct (beq q k) eqn:E; [apply beq_eq in E; subst q; contradiction|reflexivity]. }
    unfold set_for_you in NE. rewrite !NE by (cbn [In]; tauto). cbn iota. destruct toc, (assigned l k); reflexivity.
Qed.

Definition content_outcome : res (outcome (trie bytes)) :=
  match b_hdrs b with
  | [] => Ok (Good (done None))
  | _ =>
      match (match assigned l (B "TOCTREE_MAXDEPTH") with
             | None => Some md
             | Some m => let '(z, r) := strtol m in match m, r with _ :: _, _ :: _ => None | _, _ => Some (to_int z) end
             end) with
      | None => Ok (Bad (SErr (B "Invalid value for 'TOCTREE_MAXDEPTH' variable: " ++
                               match assigned l (B "TOCTREE_MAXDEPTH") with Some m => m | None => [] end ++ B ".") (Some (length src - 1))))
      | Some d => do t <- toctree_render (b_hdrs b) d (Some (b_le b)) ; Ok (Good (done t))
      end
  end.
Lemma parse_content : source_parse fuel src md = content_outcome.
Proof.
  pose proof (parse_runs fuel md Hl Hg Hs Hx) as P. cbv zeta in P. fold src in P. rewrite P. clear P. unfold source_content. cbn [s_start s_rv s_state s_key]. rewrite raw_tmp.
  rewrite trie_lookup_insert by (apply no_nulb_spec; reflexivity). change (beq (B "RAW_CONTENT") (B "TOCTREE")) with false. cbn iota.
  rewrite tries_lookup, trie_lookup_new by (auto; apply no_nulb_spec; reflexivity).
  replace (match match assigned l (B "TOCTREE") with Some v => Some v | None => None end with Some _ => false | None => true end) with asked
    by (unfold asked; destruct (assigned l (B "TOCTREE")); reflexivity).
  rewrite Hb. cbn [rbind]. fold rv1. unfold content_outcome.
  assert (F : forall d t, (do r <- Ok (Good (Sst SContent (length src - length x) d t)) ; match r with Good s => source_finish (length src) s | Bad e => Ok (Bad e) end)
    = Ok (Good t)).
  { intros d t. cbn [rbind]. unfold source_finish. cbn [s_rv s_state s_key]. destruct (Nat.eqb _ _); reflexivity. }
  destruct (b_hdrs b) as [|h hs]; [apply F|].
  rewrite !rv1_lookup by (apply no_nulb_spec; reflexivity).
  change (beq (B "RAW_CONTENT") (B "TOCTREE_MAXDEPTH")) with false. change (beq (B "FIRST_HEADER") (B "TOCTREE_MAXDEPTH")) with false.
  change (beq (B "DESCRIPTION") (B "TOCTREE_MAXDEPTH")) with false. cbn iota.
  destruct (assigned l (B "TOCTREE_MAXDEPTH")) as [m|].
  - destruct (strtol m) as [z r]. destruct m as [|c m], r as [|c' r]; try reflexivity;
      (destruct (toctree_render _ _ _) as [t| |]; cbn [rbind]; [apply F|reflexivity|reflexivity]).
  - destruct (toctree_render _ _ _) as [t| |]; cbn [rbind]; [apply F|reflexivity|reflexivity].
Qed.
End Content.
Lemma done_frame l x b : Forall entry_ok l -> forall toc,
  trie_lookup (done l x b toc) (B "RAW_CONTENT") = Some x /\ trie_lookup (done l x b toc) (B "CONTENT") = Some (b_rv b) /\
  (forall k v, In k [B "FIRST_HEADER"; B "DESCRIPTION"] -> assigned l k = Some v -> trie_lookup (done l x b toc) k = Some v) /\
  forall k, no_nul k -> ~ In k set_for_you -> trie_lookup (done l x b toc) k = assigned l k.
Proof.
  intros Hl toc. unfold done.
  assert (L : forall k, no_nul k -> trie_lookup (trie_insert (trie_insert (match toc with None => rv1 l x b | Some t => trie_insert (rv1 l x b) (B "TOCTREE") t end) (B "CONTENT") (b_rv b))
    (B "EXCERPT") (if Nat.eqb (b_exc b) 0 then b_rv b else strndup (b_rv b) (b_exc b))) k =
    if beq (B "EXCERPT") k then Some (if Nat.eqb (b_exc b) 0 then b_rv b else strndup (b_rv b) (b_exc b))
    else if beq (B "CONTENT") k then Some (b_rv b)
    else match toc with Some t => if beq (B "TOCTREE") k then Some t else trie_lookup (rv1 l x b) k | None => trie_lookup (rv1 l x b) k end).
  { intros k Hk. rewrite !trie_lookup_insert by (auto; apply no_nulb_spec; reflexivity).
    destruct toc; [rewrite trie_lookup_insert by (auto; apply no_nulb_spec; reflexivity)|]; reflexivity. }
  rewrite !L by (apply no_nulb_spec; reflexivity).
  split; [destruct toc; apply (rv1_lookup x b Hl); apply no_nulb_spec; reflexivity|]. split; [reflexivity|]. split.
  - intros k v [<-|[<-|[]]] Hv; rewrite L by (apply no_nulb_spec; reflexivity); destruct toc;
      (etransitivity; [apply (rv1_lookup x b Hl); apply no_nulb_spec; reflexivity|]); rewrite Hv; reflexivity.
  - intros k Hk Hn. rewrite L by exact Hk.
    assert (NE : forall q, In q set_for_you -> beq q k = false).
    { intros q Hq. destruct (beq q k) eqn:E; [apply beq_eq in E; subst q; contradiction|reflexivity]. }
    pose proof (rv1_lookup x b Hl Hk) as R.
    unfold set_for_you in NE. rewrite !NE in R by (cbn [In]; tauto). rewrite !NE by (cbn [In]; tauto). cbn iota. rewrite R. destruct toc, (assigned l k); reflexivity.
Qed.
