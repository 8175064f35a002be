(* Property C60: which lines belong to a numbered list. *)
From Verif Require Import Base Utils UtilsProofs Content DocSpec.
#[local] Arguments B : simpl never.

Lemma digit_count_spec s : exists ds r, s = ds ++ r /\ length ds = digit_count s /\ Forall (fun c => is_digit c = true) ds /\
  (forall c r', r = c :: r' -> is_digit c = false).
Proof.
  induction s as [|c s IH]; [exists [], []; repeat split; [constructor|discriminate]|]. cbn [digit_count]. destruct (is_digit c) eqn:E.
  - destruct IH as (ds & r & -> & H1 & H2 & H3). exists (c :: ds), r. repeat split; [cbn; congruence|constructor; assumption|exact H3].
  - exists [], (c :: s). repeat split; [constructor|]. intros c' r' K. injection K as <- _. exact E.
Qed.
Lemma skip_sp_spec s : forall n, exists w r, s = w ++ r /\ length w = skip_sp s n /\ length w <= n /\ Forall (fun c => is_sp c = true) w /\
  (length w < n -> forall c r', r = c :: r' -> is_sp c = false).
Proof.
  induction s as [|c s IH]; intros [|n]; try (exists [], []; repeat split; cbn; [lia|constructor|discriminate]).
  - exists [], (c :: s). repeat split; cbn; [lia|constructor|lia].
  - cbn [skip_sp]. destruct (is_sp c) eqn:E.
    + destruct (IH n) as (w & r & -> & H1 & H2 & H3 & H4). exists (c :: w), r. repeat split; cbn [length]; [congruence|lia|constructor; assumption|].
      intros H. apply H4. lia.
    + exists [], (c :: s). repeat split; cbn; [lia|constructor|]. intros _ c' r' K. injection K as <- _. exact E.
Qed.
Lemma is_sp_blank c : is_sp c = true <-> blank c.
Proof. unfold is_sp, blank. rewrite orb_true_iff, !eqb_true. tauto. Qed.

(* A line belongs to a numbered list whose first item has a mark of [plen] bytes exactly if it begins with
   a number, a dot and blanks, [plen] bytes together, and something follows. *)
Theorem C60_numbered_line s plen : is_ordered_item s plen = true <->
  exists ds w c r, s = ds ++ "."%char :: w ++ c :: r /\ ds <> [] /\ Forall (fun c => is_digit c = true) ds /\ Forall blank w /\
    length ds + 1 + length w = plen.
Proof.
  unfold is_ordered_item. split.
  - destruct (Nat.ltb (length s) 2); [discriminate|]. destruct (digit_count_spec s) as (ds & r & E & H1 & H2 & H3).
    rewrite <- H1. destruct (Nat.eqb_spec (length ds) 0) as [|N]; [discriminate|].
    destruct (nth (length ds) s NUL == "."%char) eqn:Ed; [|discriminate]. cbn [negb]. apply eqb_true in Ed.
    rewrite E in Ed. rewrite app_nth2, Nat.sub_diag in Ed by lia. destruct r as [|d r]; [discriminate Ed|]. cbn in Ed. subst d.
    assert (Es : skipn (length ds + 1) s = r).
    { rewrite E. change ("."%char :: r) with (["."%char] ++ r). rewrite app_assoc, skipn_app.
      rewrite skipn_all2 by (rewrite app_length; cbn; lia). rewrite app_length. cbn [length].
      replace (length ds + 1 - (length ds + 1)) with 0 by lia. reflexivity. }
    rewrite Es. destruct (skip_sp_spec r (plen - (length ds + 1))) as (w & q & Er & G1 & G2 & G3 & _). rewrite <- G1.
    destruct (Nat.leb_spec (length s) (length ds + 1 + length w)) as [|L]; [discriminate|]. intro K. apply Nat.eqb_eq in K.
    destruct q as [|c q].
    { exfalso. rewrite E, Er, app_nil_r, app_length in L. cbn [length] in L. lia. }
    exists ds, w, c, q. split; [rewrite E, Er; reflexivity|]. split; [intros ->; apply N; reflexivity|]. split; [exact H2|].
    split; [|exact K]. revert G3. apply Forall_impl. intros a Ha. apply is_sp_blank. exact Ha.
  - intros (ds & w & c & r & -> & N & H2 & H3 & H4).
    assert (L1 : 1 <= length ds) by (destruct ds; [congruence|cbn; lia]).
    assert (Ln : length (ds ++ "."%char :: w ++ c :: r) = length ds + 1 + length w + 1 + length r) by (rewrite app_length; cbn [length]; rewrite app_length; cbn [length]; lia).
    destruct (Nat.ltb_spec (length (ds ++ "."%char :: w ++ c :: r)) 2) as [|_]; [lia|].
    assert (D : digit_count (ds ++ "."%char :: w ++ c :: r) = length ds).
    { clear -H2. induction H2 as [|d ds Hd H IH]; [reflexivity|]. cbn [app digit_count length]. rewrite Hd. congruence. }
    rewrite D. destruct (Nat.eqb_spec (length ds) 0); [lia|]. rewrite app_nth2, Nat.sub_diag by lia. cbn [nth].
    rewrite Ascii.eqb_refl. cbn [negb].
    assert (Es : skipn (length ds + 1) (ds ++ "."%char :: w ++ c :: r) = w ++ c :: r).
    { change ("."%char :: w ++ c :: r) with (["."%char] ++ (w ++ c :: r)). rewrite app_assoc, skipn_app.
      rewrite skipn_all2 by (rewrite app_length; cbn; lia). rewrite app_length. cbn [length].
      replace (length ds + 1 - (length ds + 1)) with 0 by lia. reflexivity. }
    rewrite Es. replace (plen - (length ds + 1)) with (length w) by lia.
    assert (K : skip_sp (w ++ c :: r) (length w) = length w).
    { clear -H3. induction H3 as [|d w Hd H IH]; [destruct r; reflexivity|]. cbn [app skip_sp length]. apply is_sp_blank in Hd. rewrite Hd. congruence. }
    rewrite K. destruct (Nat.leb_spec (length (ds ++ "."%char :: w ++ c :: r)) (length ds + 1 + length w)); [lia|].
    apply Nat.eqb_eq. exact H4.
Qed.
Print Assumptions C60_numbered_line.
Example C60_numbered_example : is_ordered_item (B "10. x") 4 = true /\ is_ordered_item (B "8.  x") 4 = true /\ is_ordered_item (B "8. ") 3 = false /\
  is_ordered_item (B "8. x") 4 = false.
Proof. repeat split. Qed.
