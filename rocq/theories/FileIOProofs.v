From Verif Require Import Base Utf8 Utf8Proofs FileIO.

(* the file content without its leading byte order mark *)
Definition without_bom (content : bytes) : bytes :=
  if beq (firstn 3 content) BOM then skipn 3 content else content.

Lemma fread_spec n : forall want acc s, want < n ->
  let '(buf, s') := fread n want acc s in
  buf = acc ++ firstn want (pending s)
  /\ pending s' = skipn want (pending s)
  /\ broken s' = broken s
  /\ eof s' = (eof s || (negb (broken s) && Nat.ltb (length (pending s)) want)).
Proof.
  induction n as [|n IH]; intros want acc s Hn; [lia|].
  cbn [fread]. destruct (Nat.eqb_spec want 0) as [->|Hw].
  - simpl. rewrite app_nil_r, andb_false_r, orb_false_r. auto.
  - destruct (pending s) as [|c p] eqn:Ep.
    + rewrite firstn_nil, skipn_nil, app_nil_r. destruct (broken s) eqn:Eb.
      * rewrite Ep, Eb. simpl. rewrite orb_false_r. auto.
      * simpl. destruct (Nat.ltb_spec 0 want); [|lia]. rewrite orb_true_r. auto.
    + set (k := Nat.min want (Nat.min (length (c :: p)) (Nat.max 1 (hd 1 (sizes s))))).
      assert (Hk : 1 <= k <= want /\ k <= length (c :: p)) by (unfold k; simpl length; lia).
      specialize (IH (want - k) (acc ++ firstn k (c :: p))
                     (Stream (skipn k (c :: p)) (tl (sizes s)) (broken s) (eof s)) ltac:(lia)).
      destruct (fread n (want - k) _ _) as [buf s']. cbn [pending broken eof] in IH.
      destruct IH as (H1 & H2 & H3 & H4). repeat split.
      * rewrite H1, <- app_assoc. f_equal.
        transitivity (firstn (k + (want - k)) (c :: p)); [|f_equal; lia].
        rewrite <- (firstn_skipn k (c :: p)) at 3.
        rewrite firstn_app. rewrite firstn_length.
        replace (k + (want - k) - Nat.min k (length (c :: p))) with (want - k) by lia.
        f_equal. rewrite firstn_firstn. f_equal. lia.
      * rewrite H2, skipn_add. f_equal. lia.
      * exact H3.
      * rewrite H4, skipn_length. f_equal. f_equal.
        destruct (Nat.ltb_spec (length (c :: p) - k) (want - k)),
                 (Nat.ltb_spec (length (c :: p)) want); lia.
Qed.

(* once something was stored, the rest is appended as it is *)
Lemma read_loop_tail chunk u : 0 < chunk -> forall n s str fuel,
  length (pending s) <= n -> n + 1 < fuel -> broken s = false -> eof s = false -> str <> [] ->
  read_loop fuel chunk u str s = Ok (str ++ pending s).
Proof.
  intros Hc. induction n as [n IH] using lt_wf_ind. intros s str fuel Hn Hf Hb He Hs.
  destruct fuel as [|fuel]; [lia|]. cbn [read_loop]. rewrite He.
  pose proof (@fread_spec (S chunk) chunk [] s ltac:(lia)) as Hfr.
  destruct (fread (S chunk) chunk [] s) as [buf s']. destruct Hfr as (H1 & H2 & H3 & H4).
  assert (Hsl : Nat.eqb (length str) 0 = false) by (destruct str; [congruence|reflexivity]).
  rewrite Hsl, andb_false_r. cbn [andb skipn]. simpl in H1. subst buf.
  rewrite Hb, He in H4. simpl in H4.
  destruct (Nat.ltb_spec (length (pending s)) chunk) as [Hlt|Hge].
  - destruct fuel as [|fuel]; [lia|]. cbn [read_loop]. rewrite H4.
    rewrite firstn_all2 by lia. reflexivity.
  - rewrite (IH (n - chunk)); try assumption.
    + rewrite H2, <- app_assoc, firstn_skipn. reflexivity.
    + lia.
    + rewrite H2, skipn_length. lia.
    + lia.
    + congruence.
    + destruct str; [congruence|discriminate].
Qed.

Lemma skip_bom_spec x : skipn (utf8_skip_bom x) x = without_bom x.
Proof.
  unfold without_bom, BOM. destruct x as [|a [|b [|c x]]]; cbn [utf8_skip_bom firstn beq].
  - reflexivity.
  - rewrite andb_false_r. reflexivity.
  - rewrite !andb_false_r. reflexivity.
  - rewrite andb_true_r, andb_assoc.
    destruct ((a == "239"%char) && (b == "187"%char) && (c == "191"%char)); reflexivity.
Qed.

Lemma skip_bom_prefix x y : 3 <= length x -> utf8_skip_bom (x ++ y) = utf8_skip_bom x.
Proof. destruct x as [|a [|b [|c x]]]; simpl; intro H; try lia; reflexivity. Qed.

Lemma skip_bom_le x : utf8_skip_bom x <= 3.
Proof. destruct x as [|a [|b [|c x]]]; simpl; try lia. destruct (_ && _); lia. Qed.

Lemma read_loop_spec chunk u content sz fuel :
  3 < chunk -> length content + 2 < fuel ->
  read_loop fuel chunk u [] (opened content sz false)
  = Ok (if u then without_bom content else content).
Proof.
  intros Hc Hf. destruct fuel as [|fuel]; [lia|]. cbn [read_loop opened eof].
  pose proof (@fread_spec (S chunk) chunk [] (opened content sz false) ltac:(lia)) as Hfr.
  destruct (fread (S chunk) chunk [] (opened content sz false)) as [buf s'].
  cbn [opened pending broken eof] in Hfr. destruct Hfr as (H1 & H2 & H3 & H4). simpl in H1, H4.
  cbn [length Nat.eqb app]. rewrite andb_true_r.
  destruct (Nat.ltb_spec (length content) chunk) as [Hlt|Hge].
  - (* everything in the first read *)
    destruct fuel as [|fuel]; [lia|]. cbn [read_loop]. rewrite H4.
    rewrite firstn_all2 in H1 by lia. subst buf. destruct u; cbn [andb].
    + destruct (Nat.ltb_spec 0 (length content)) as [_|H0].
      * rewrite skip_bom_spec. reflexivity.
      * destruct content; [reflexivity|simpl in H0; lia].
    + reflexivity.
  - assert (Hbl : length buf = chunk) by (subst buf; rewrite firstn_length; lia).
    assert (Hcat : buf ++ pending s' = content) by (subst buf; rewrite H2; apply firstn_skipn).
    assert (Htail : forall str, str <> [] -> read_loop fuel chunk u str s' = Ok (str ++ pending s')).
    { intros str Hs. apply read_loop_tail with (n := length (pending s')); try assumption; try lia.
      rewrite H2, skipn_length. lia. }
    destruct u; cbn [andb].
    + destruct (Nat.ltb_spec 0 (length buf)) as [_|H0]; [|lia].
      assert (Hne : skipn (utf8_skip_bom buf) buf <> []).
      { intro E. apply (f_equal (@length _)) in E. rewrite skipn_length in E.
        pose proof (skip_bom_le buf). simpl in E. lia. }
      rewrite Htail by exact Hne. f_equal.
      assert (Hsk : utf8_skip_bom content = utf8_skip_bom buf)
        by (rewrite <- Hcat; apply skip_bom_prefix; lia).
      rewrite <- (skip_bom_spec content), Hsk.
      pose proof (skip_bom_le buf).
      rewrite <- Hcat, skipn_app.
      replace (utf8_skip_bom buf - length buf) with 0 by lia. reflexivity.
    + cbn [skipn]. rewrite Htail; [congruence|].
      intro E. rewrite E in Hbl. simpl in Hbl. lia.
Qed.

Lemma utf8_bom_iff content : utf8 (without_bom content) <-> utf8 content.
Proof.
  unfold without_bom. destruct (beq_spec (firstn 3 content) BOM) as [E|_]; [|reflexivity].
  rewrite <- (firstn_skipn 3 content) at 2. rewrite E.
  rewrite <- !validate_iff, !validate_run, run_spec_app.
  change (run_spec 0 BOM) with 0. reflexivity.
Qed.

Lemma file_plain content sz fuel : length content + 2 < fuel ->
  file_get_contents fuel false (opened content sz false) = Ok (Some content).
Proof.
  intro Hf. unfold file_get_contents. rewrite read_loop_spec; [reflexivity| |exact Hf].
  unfold FILE_CHUNK. lia.
Qed.

Lemma file_utf8 content sz fuel : length content + 2 < fuel ->
  (utf8 content ->
     file_get_contents fuel true (opened content sz false) = Ok (Some (without_bom content)))
  /\ (~ utf8 content ->
     file_get_contents fuel true (opened content sz false) = Ok None).
Proof.
  intro Hf. unfold file_get_contents. rewrite read_loop_spec; [|unfold FILE_CHUNK; lia|exact Hf].
  cbn [rbind]. rewrite <- utf8_bom_iff.
  destruct (validate_exact (without_bom content)) as (b & E & H). rewrite E. cbn [rbind].
  split; intro Hu.
  - apply H in Hu. subst b. reflexivity.
  - destruct b; [destruct Hu; apply H; reflexivity|reflexivity].
Qed.

(* a stream that fails before end of file is never left *)
Lemma broken_forever chunk u fuel : forall str s, broken s = true -> eof s = false ->
  read_loop fuel chunk u str s = OutOfFuel.
Proof.
  induction fuel as [|fuel IH]; intros str s Hb He; [reflexivity|].
  cbn [read_loop]. rewrite He.
  pose proof (@fread_spec (S chunk) chunk [] s ltac:(lia)) as Hfr.
  destruct (fread (S chunk) chunk [] s) as [buf s']. destruct Hfr as (_ & _ & H3 & H4).
  apply IH; [congruence|]. rewrite H4, He, Hb. reflexivity.
Qed.

Lemma stdin_loop_spec input : forall acc, stdin_loop acc input = acc ++ input.
Proof.
  induction input as [|c r IH]; intro acc; simpl; [rewrite app_nil_r; reflexivity|].
  rewrite IH, <- app_assoc. reflexivity.
Qed.
Lemma stdin_all input : stdin_read input = input.
Proof. apply (stdin_loop_spec input []). Qed.
