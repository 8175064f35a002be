(* Proofs about Loader.v. *)
From Coq Require Import ZArith Permutation Sorting.Sorted.
From Verif Require Import Base Utils UtilsProofs BlockDoc Trie TrieProofs Datetime Sort SortProofs Content Source BlockSpec BlockOut SourceProofs
  Loader LoaderSpec.
#[local] Arguments B : simpl never.
#[local] Open Scope nat_scope.

(* ---------- file names ---------- *)
Definition sepb (c : ascii) : bool := (c == "/"%char) || (c == BSL).
Lemma sepb_spec c : reflect (path_separator c) (sepb c).
Proof.
  apply iff_reflect. unfold path_separator, sepb. rewrite orb_true_iff. split; intros [H|H].
  - left. subst. reflexivity.
  - right. subst. reflexivity.
  - left. apply eqb_true. exact H.
  - right. apply eqb_true. exact H.
Qed.
Lemma sep_nodot c : path_separator c -> (c == "."%char) = false.
Proof. intros [-> | ->]; reflexivity. Qed.

Lemma go_plain : forall n b acc r, Forall (fun c => ~ path_separator c) n -> b = true \/ ~ In "."%char n ->
  filename_go b acc (rev n ++ r) = filename_go b (n ++ acc) r.
Proof.
  induction n as [|c n IH] using rev_ind; intros b acc r Hs Hd; [reflexivity|].
  apply Forall_app in Hs. destruct Hs as [Hs Hc]. rewrite Forall_cons_iff in Hc. destruct Hc as [Hc _].
  rewrite rev_app_distr. cbn [rev app filename_go].
  assert (E : negb b && (c == "."%char) = false).
  { destruct Hd as [-> | Hd]; [reflexivity|]. apply andb_false_iff. right. apply eqb_neq. intros ->. apply Hd. apply in_or_app. right. left. reflexivity. }
  rewrite E. fold (sepb c). destruct (sepb_spec c); [contradiction|]. cbn [orb].
  rewrite IH; [rewrite <- app_assoc; reflexivity|exact Hs|].
  destruct Hd as [Hd|Hd]; [left; exact Hd|right]. intro H. apply Hd. apply in_or_app. left. exact H.
Qed.
Lemma go_dir b acc dir : (dir = [] \/ exists d c, dir = d ++ [c] /\ path_separator c) -> filename_go b acc (rev dir) = acc.
Proof.
  intros [-> | (d & c & -> & Hc)]; [reflexivity|]. rewrite rev_app_distr. cbn [rev app filename_go].
  rewrite (sep_nodot Hc), andb_false_r. fold (sepb c). destruct (sepb_spec c); [reflexivity|contradiction].
Qed.
Lemma file_name_get f n : f <> [] -> file_name f n -> get_filename (Some f) = Some n.
Proof.
  intros Hf (dir & ext & -> & Hd & Hs & He). unfold get_filename.
  destruct (dir ++ n ++ ext) eqn:E; [contradiction|]. rewrite <- E. f_equal.
  rewrite !rev_app_distr, <- app_assoc. apply Forall_app in Hs. destruct Hs as [Hs1 Hs2].
  destruct He as [(-> & He)|(e & -> & He)].
  - cbn [rev app]. rewrite go_plain by auto. rewrite app_nil_r. apply go_dir. exact Hd.
  - cbn [rev]. rewrite <- app_assoc. rewrite Forall_cons_iff in Hs2. rewrite go_plain by tauto.
    cbn [app filename_go negb]. rewrite eqb_refl. cbn [andb]. rewrite go_plain by auto. rewrite app_nil_r. apply go_dir. exact Hd.
Qed.
Lemma last_such (P : ascii -> bool) : forall f, exists a b, f = a ++ b /\ (a = [] \/ exists d c, a = d ++ [c] /\ P c = true) /\ Forall (fun c => P c = false) b.
Proof.
  induction f as [|c f IH] using rev_ind.
  - exists [], []. repeat split; [left; reflexivity|constructor].
  - destruct (P c) eqn:E.
    + exists (f ++ [c]), []. rewrite app_nil_r. repeat split; [|constructor]. right. exists f, c. auto.
    + destruct IH as (a & b & -> & Ha & Hb). exists a, (b ++ [c]). rewrite app_assoc. repeat split; [exact Ha|].
      apply Forall_app. split; [exact Hb|]. constructor; [exact E|constructor].
Qed.
Lemma file_name_exists f : exists n, file_name f n.
Proof.
  destruct (last_such sepb f) as (dir & b & -> & Hd & Hb).
  assert (Hs : Forall (fun c => ~ path_separator c) b).
  { eapply Forall_impl; [|exact Hb]. intros c E K. cbv beta in E. destruct (sepb_spec c); [discriminate|contradiction]. }
  assert (Hd' : dir = [] \/ exists d c, dir = d ++ [c] /\ path_separator c).
  { destruct Hd as [->|(d & c & -> & E)]; [left; reflexivity|right]. exists d, c. split; [reflexivity|]. destruct (sepb_spec c); [assumption|discriminate]. }
  destruct (last_such (fun c => c == "."%char) b) as (a & e & -> & Ha & He).
  assert (He' : ~ In "."%char e).
  { intro K. rewrite Forall_forall in He. specialize (He _ K). cbv beta in He. rewrite eqb_refl in He. discriminate. }
  destruct Ha as [->|(d & c & -> & E)].
  - exists e, dir, []. cbn [app] in *. rewrite !app_nil_r. split; [reflexivity|]. split; [exact Hd'|]. split; [exact Hs|]. left. auto.
  - apply eqb_true in E. subst c. exists d, dir, ("."%char :: e). rewrite <- app_assoc in *. cbn [app] in *. repeat split; auto.
    right. exists e. auto.
Qed.

(* ---------- tags ---------- *)
Lemma split_go_in t : t <> [] -> forall rest n tok, ~ In SP tok ->
  In t (split_go SP 0 n tok rest) <->
  ~ In SP t /\ exists a b, tok ++ rest = a ++ t ++ b /\ (a = [] \/ exists a', a = a' ++ [SP]) /\ (b = [] \/ exists b', b = SP :: b').
Proof.
  intro Ht. induction rest as [|x r IH]; intros n tok Hk; cbn [split_go].
  - rewrite app_nil_r. split.
    + intros [->|[]]. split; [exact Hk|]. exists [], []. rewrite app_nil_r. auto.
    + intros (Hs & a & b & E & Ha & Hb). left.
      assert (a = []) as ->. { destruct Ha as [->|(a' & ->)]; [reflexivity|]. exfalso. apply Hk. rewrite E. apply in_or_app. left. apply in_or_app. right. left. reflexivity. }
      assert (b = []) as ->. { destruct Hb as [->|(b' & ->)]; [reflexivity|]. exfalso. apply Hk. rewrite E. apply in_or_app. right. apply in_or_app. right. left. reflexivity. }
      rewrite app_nil_r in E. exact E.
  - destruct (x == SP) eqn:E.
    + apply eqb_true in E. subst x. cbn [andb Nat.eqb orb In]. rewrite (IH (S n) [] ltac:(intros [])). cbn [app]. split.
      * intros [->|(Hs & a & b & -> & Ha & Hb)].
        { split; [exact Hk|]. exists [], (SP :: r). split; [reflexivity|]. split; [left; reflexivity|right; eauto]. }
        { split; [exact Hs|]. exists (tok ++ SP :: a), b. split; [rewrite <- app_assoc; reflexivity|]. split; [|exact Hb].
          right. destruct Ha as [->|(a' & ->)]; [exists tok; reflexivity|]. exists (tok ++ SP :: a'). rewrite <- app_assoc. reflexivity. }
      * intros (Hs & a & b & E & Ha & Hb).
        (* the first separator is the one at [tok] *)
        destruct Ha as [->|(a' & ->)].
        { left. cbn [app] in E. destruct Hb as [->|(b' & ->)].
          - exfalso. apply Hs. rewrite app_nil_r in E. rewrite <- E. apply in_or_app. right. left. reflexivity.
          - clear -E Hs Hk. revert t E Hs. induction tok as [|y tok IH]; intros t E Hs; destruct t as [|z t]; cbn [app] in E.
            + reflexivity.
            + injection E as <- _. exfalso. apply Hs. left. reflexivity.
            + injection E as -> _. exfalso. apply Hk. left. reflexivity.
            + injection E as <- E. f_equal. apply IH; [intro; apply Hk; right; assumption|exact E|intro; apply Hs; right; assumption]. }
        { right. split; [exact Hs|]. rewrite <- app_assoc in E. cbn [app] in E.
          assert (K : exists a'', a' ++ [SP] = tok ++ SP :: a'' /\ (a'' = [] \/ exists c, a'' = c ++ [SP]) /\ r = a'' ++ t ++ b).
          { clear -E Hk. revert a' E. induction tok as [|y tok IH]; intros a' E; destruct a' as [|z a']; cbn [app] in E.
            - injection E as ->. exists []. auto.
            - injection E as <- ->. exists (a' ++ [SP]). split; [reflexivity|]. split; [right; eauto|]. rewrite <- app_assoc. reflexivity.
            - injection E as -> _. exfalso. apply Hk. left. reflexivity.
            - injection E as <- E. destruct (IH ltac:(intro; apply Hk; right; assumption) a' E) as (a'' & E1 & E2 & E3).
              exists a''. split; [cbn [app]; rewrite E1; reflexivity|]. auto. }
          destruct K as (a'' & _ & K2 & K3). exists a'', b. auto. }
    + cbn [andb]. rewrite IH; [rewrite <- app_assoc; reflexivity|].
      intro K. apply in_app_or in K. destruct K as [K|[K|[]]]; [contradiction|]. subst x. rewrite eqb_refl in E. discriminate.
Qed.
Lemma tag_found_spec ft p : tag_found ft p = true <-> kept_by ft p.
Proof.
  unfold tag_found, kept_by. destruct ft as [t|]; [|tauto]. unfold tagged.
  destruct (trie_lookup p (B "TAGS")) as [tags|]; [|split; [discriminate|intros (x & E & _); discriminate]].
  assert (K : existsb (fun x => match x with [] => false | _ => beq x t end) (str_split tags SP 0) = true <-> has_tag tags t).
  { rewrite existsb_exists. unfold has_tag. split.
    - intros (x & Hin & Hx). destruct x as [|c x]; [discriminate|]. apply beq_eq in Hx. subst t. split; [discriminate|].
      destruct tags as [|d tags]; [destruct Hin|]. unfold str_split in Hin. apply split_go_in in Hin; [|discriminate|intros []]. exact Hin.
    - intros (Ht & Hs & H). exists t. split.
      + destruct tags as [|d tags].
        * exfalso. destruct H as (a & b & E & _). destruct a, t; try discriminate. contradiction.
        * unfold str_split. apply split_go_in; [exact Ht|intros []|]. auto.
      + destruct t; [contradiction|]. apply beq_refl. }
  rewrite K. split; [intro H; exists tags; auto|]. intros (x & E & H). injection E as <-. exact H.
Qed.

(* ---------- numbers ---------- *)
Lemma print_written z : written z (print_z z).
Proof.
  unfold written, print_z. destruct (Z.ltb_spec z 0).
  - exists (Z.to_nat (- z)), (dec (Z.to_N (- z))). split.
    + replace (Z.to_N (- z)) with (N.of_nat (Z.to_nat (- z))) by lia. apply dec_decimal.
    + right. repeat split; lia.
  - exists (Z.to_nat z), (dec (Z.to_N z)). split.
    + replace (Z.to_N z) with (N.of_nat (Z.to_nat z)) by lia. apply dec_decimal.
    + left. split; [lia|reflexivity].
Qed.
Lemma print_numeral z : (1 <= z)%Z -> numeral z (print_z z).
Proof.
  intro H. unfold numeral, print_z. destruct (Z.ltb_spec z 0); [lia|]. split; [exact H|].
  replace (Z.to_N z) with (N.of_nat (Z.to_nat z)) by lia. split; [apply dec_decimal|].
  unfold dec. apply dec_go_hd; [lia|]. set (m := N.of_nat (Z.to_nat z)). rewrite Nat2N.inj_succ, N2Nat.id.
  pose proof (N.log2_spec m ltac:(unfold m; lia)) as [_ L]. eapply N.lt_le_trans; [exact L|]. apply N.pow_le_mono_l. lia.
Qed.
Lemma digit_facts c : is_digit c = true -> isspace c = false /\ (c == "-"%char) = false /\ (c == "+"%char) = false.
Proof.
  intro Hc.
  pose proof (@forall_bytes (fun c => implb (is_digit c) (negb (isspace c) && negb (c == "-"%char) && negb (c == "+"%char))) eq_refl c) as K.
  cbv beta in K. rewrite Hc in K. cbn [implb] in K. rewrite !andb_true_iff, !negb_true_iff in K. tauto.
Qed.
Lemma decimal_digits n ds : decimal n ds -> exists c r, ds = c :: r /\ is_digit c = true /\ digits_value ds 0 = (Z.of_nat n, []).
Proof.
  intros (Hne & Hd & Hn). pose proof (@digits_nat ds 0 [] Hd I) as V. rewrite app_nil_r in V. rewrite Hn in V.
  destruct ds as [|c ds]; [contradiction|]. rewrite Forall_cons_iff in Hd. exists c, ds. split; [reflexivity|]. split; [tauto|exact V].
Qed.
Lemma long_strtol s z : long_int s z -> strtol s = (z, []).
Proof.
  intros ((n & ds & Hd & Hs) & Hr). destruct (decimal_digits Hd) as (c & r & E & Hc & V).
  destruct (digit_facts Hc) as (S1 & S2 & S3). unfold strtol.
  assert (CL : clamp_long z = z) by (unfold clamp_long; lia).
  destruct Hs as [(-> & ->)|(Hz & -> & ->)].
  - rewrite E in *. cbn [skip_space]. rewrite S1. cbn iota. rewrite S2, S3. cbn iota. rewrite Hc, V, CL. reflexivity.
  - cbn [skip_space]. change (isspace "-"%char) with false. cbn iota. rewrite eqb_refl. cbn iota.
    rewrite E in *. rewrite Hc, V, CL. reflexivity.
Qed.
Lemma written_strtoul s z : written z s -> (- 2 ^ 63 <= z < 2 ^ 63)%Z -> strtoul s = (z mod 2 ^ 64)%Z.
Proof.
  intros (n & ds & Hd & Hs) Hr. destruct (decimal_digits Hd) as (c & r & E & Hc & V).
  destruct (digit_facts Hc) as (S1 & S2 & S3). unfold strtoul.
  destruct Hs as [(-> & ->)|(Hz & -> & ->)].
  - rewrite E in *. cbn [skip_space]. rewrite S1. cbn iota. rewrite S2, S3. cbn iota. rewrite V.
    destruct (Z.leb_spec (2 ^ 64) (Z.of_nat n)); [lia|reflexivity].
  - cbn [skip_space]. change (isspace "-"%char) with false. cbn iota. rewrite eqb_refl. cbn iota. rewrite V.
    destruct (Z.leb_spec (2 ^ 64) (Z.of_nat n)); [lia|reflexivity].
Qed.
Lemma to_int_small d : (- 2 ^ 31 <= d < 2 ^ 31)%Z -> to_int d = d.
Proof.
  intro Hr. unfold to_int. destruct (Z.ltb_spec d 0).
  - replace (d mod 2 ^ 32)%Z with (d + 2 ^ 32)%Z by (apply (Z.mod_unique _ _ (-1)); lia).
    destruct (Z.ltb_spec (d + 2 ^ 32) (2 ^ 31)); lia.
  - rewrite Z.mod_small by lia. destruct (Z.ltb_spec d (2 ^ 31)); lia.
Qed.
Lemma to_int_mod d : to_int (d mod 2 ^ 64) = to_int d.
Proof.
  unfold to_int. replace ((d mod 2 ^ 64) mod 2 ^ 32)%Z with (d mod 2 ^ 32)%Z; [reflexivity|].
  rewrite (Z.div_mod d (2 ^ 64)) at 1 by lia.
  replace (2 ^ 64 * (d / 2 ^ 64) + d mod 2 ^ 64)%Z with (d mod 2 ^ 64 + (2 ^ 32 * (d / 2 ^ 64)) * 2 ^ 32)%Z by lia.
  apply Z_mod_plus_full.
Qed.

(* ---------- options and selections ---------- *)
Lemma word_case f w W : Forall2 (fun d D => forall c, (f c == d) = (upper_of c == D)) w W ->
  forall v, beq (map f v) w = beq (map upper_of v) W.
Proof.
  induction 1 as [|d D w W Hd Hw IH]; intros [|c v]; try reflexivity. cbn [map]. specialize (IH v). specialize (Hd c).
  destruct (beq_spec (f c :: map f v) (d :: w)) as [E|E]; destruct (beq_spec (upper_of c :: map upper_of v) (D :: W)) as [E'|E']; try reflexivity; exfalso.
  - injection E as E1 E2. rewrite E1, eqb_refl in Hd. rewrite E2, beq_refl in IH. symmetry in Hd, IH. apply eqb_true in Hd. apply beq_eq in IH. congruence.
  - injection E' as E1 E2. rewrite E1, eqb_refl in Hd. rewrite E2, beq_refl in IH. apply eqb_true in Hd. apply beq_eq in IH. congruence.
Qed.
Lemma enabled_spec conf k : str_to_bool (trie_lookup conf k) = true <-> enabled conf k.
Proof.
  unfold enabled. assert (K : forall v, str_to_bool (Some v) = true <-> In (map upper_of v) [B "1"; B "Y"; B "YES"; B "TRUE"; B "ON"]).
  { intro v. unfold str_to_bool, strcaseeq.
    assert (L : forall d D, forallb (fun c => Bool.eqb (to_lower c == d) (upper_of c == D)) all_bytes = true -> forall c, (to_lower c == d) = (upper_of c == D)).
    { intros d D H c. apply Bool.eqb_prop. exact (@forall_bytes _ H c). }
    assert (E1 : beq v (B "1") = beq (map upper_of v) (B "1")).
    { rewrite <- (map_id v) at 1. apply word_case. apply Forall2_cons; [|apply Forall2_nil]. intro c. apply Bool.eqb_prop.
      exact (@forall_bytes (fun c => Bool.eqb (c == "1"%char) (upper_of c == "1"%char)) eq_refl c). }
    assert (E2 : beq (map to_lower v) (B "y") = beq (map upper_of v) (B "Y")).
    { apply word_case. repeat (apply Forall2_cons; [apply L; vm_compute; reflexivity|]). apply Forall2_nil. }
    assert (E3 : beq (map to_lower v) (B "yes") = beq (map upper_of v) (B "YES")).
    { apply word_case. repeat (apply Forall2_cons; [apply L; vm_compute; reflexivity|]). apply Forall2_nil. }
    assert (E4 : beq (map to_lower v) (B "true") = beq (map upper_of v) (B "TRUE")).
    { apply word_case. repeat (apply Forall2_cons; [apply L; vm_compute; reflexivity|]). apply Forall2_nil. }
    assert (E5 : beq (map to_lower v) (B "on") = beq (map upper_of v) (B "ON")).
    { apply word_case. repeat (apply Forall2_cons; [apply L; vm_compute; reflexivity|]). apply Forall2_nil. }
    change (map to_lower (B "y")) with (B "y"). change (map to_lower (B "yes")) with (B "yes").
    change (map to_lower (B "true")) with (B "true"). change (map to_lower (B "on")) with (B "on").
    rewrite E1, E2, E3, E4, E5. generalize (map upper_of v). intro w. cbn [In].
    destruct (beq_spec w (B "1")); [subst; tauto|]. destruct (beq_spec w (B "Y")); [subst; tauto|].
    destruct (beq_spec w (B "YES")); [subst; tauto|]. destruct (beq_spec w (B "TRUE")); [subst; tauto|].
    destruct (beq_spec w (B "ON")); [subst; tauto|]. intuition congruence. }
  destruct (trie_lookup conf k) as [v|].
  - rewrite K. split; [intro H; exists v; auto|]. intros (w & E & H). injection E as <-. exact H.
  - split; [discriminate|]. intros (w & E & _). discriminate.
Qed.
Lemma enabled_bool conf k b : (b = true <-> enabled conf k) -> str_to_bool (trie_lookup conf k) = b.
Proof.
  intro H. rewrite <- enabled_spec in H. destruct (str_to_bool _), b; try reflexivity; [symmetry|]; apply H; reflexivity.
Qed.
Lemma filter_picked {A} (f : A -> bool) (P : A -> Prop) : (forall x, f x = true <-> P x) -> forall l m, picked P l m -> m = filter f l.
Proof.
  intros H l m. induction 1 as [|x l m Hx _ IH|x l m Hx _ IH]; cbn [filter]; [reflexivity| |]; subst m.
  - apply H in Hx. rewrite Hx. reflexivity.
  - destruct (f x) eqn:E; [apply H in E; contradiction|reflexivity].
Qed.
Lemma picked_filter {A} (f : A -> bool) (P : A -> Prop) l : (forall x, f x = true <-> P x) -> picked P l (filter f l).
Proof.
  intro H. induction l as [|x l IH]; cbn [filter]; [constructor|]. destruct (f x) eqn:E.
  - apply P_keep; [apply H; exact E|exact IH].
  - apply P_drop; [|exact IH]. intro K. apply H in K. congruence.
Qed.

(* ---------- sorting ---------- *)
Section SortMore.
Variables (A C : Type).
Lemma pass_agree (cmp cmp' : A -> A -> Z) (P : A -> Prop) : (forall a b, P a -> P b -> cmp a b = cmp' a b) ->
  forall fuel l i R sw, Forall P l -> pass cmp fuel l i R sw = pass cmp' fuel l i R sw /\
    forall l' r s, pass cmp fuel l i R sw = Ok (l', r, s) -> Forall P l' /\ length l' = length l.
Proof.
  intro HP. induction fuel as [|fuel IH]; intros l i R sw Hl; cbn [pass]; [split; [reflexivity|discriminate]|].
  destruct (nth_error l i) as [a|] eqn:Ea; [|split; [reflexivity|discriminate]].
  destruct (Nat.eqb (i + 1) R); [split; [reflexivity|intros l' r s E; injection E as <- _ _; auto]|].
  destruct (nth_error l (i + 1)) as [b|] eqn:Eb; [|split; [reflexivity|discriminate]].
  assert (Pa : P a) by (rewrite Forall_forall in Hl; apply Hl; eapply nth_error_In; exact Ea).
  assert (Pb : P b) by (rewrite Forall_forall in Hl; apply Hl; eapply nth_error_In; exact Eb).
  rewrite (HP a b Pa Pb). destruct (0 <? cmp' a b)%Z; [|apply IH; exact Hl].
  assert (Hs : Forall P (swap_at l i a b)).
  { unfold swap_at. rewrite Forall_forall in *. intros x Hx. apply in_app_or in Hx. destruct Hx as [Hx|[<-|[<-|Hx]]]; try assumption.
    - apply Hl. rewrite <- (firstn_skipn i l). apply in_or_app. left. exact Hx.
    - apply Hl. rewrite <- (firstn_skipn (i + 2) l). apply in_or_app. right. exact Hx. }
  destruct (IH (swap_at l i a b) (i + 1) R true Hs) as [H1 H2]. split; [exact H1|].
  intros l' r s E. destruct (H2 l' r s E) as [H3 H4]. split; [exact H3|]. rewrite H4. unfold swap_at.
  assert (i + 1 < length l) by (apply nth_error_Some; rewrite Eb; discriminate).
  rewrite app_length. cbn [length]. rewrite firstn_length, skipn_length. lia.
Qed.
Lemma sort_loop_agree (cmp cmp' : A -> A -> Z) (P : A -> Prop) : (forall a b, P a -> P b -> cmp a b = cmp' a b) ->
  forall fuel l R, Forall P l -> sort_loop cmp fuel l R = sort_loop cmp' fuel l R.
Proof.
  intro HP. induction fuel as [|fuel IH]; intros l R Hl; cbn [sort_loop]; [reflexivity|].
  destruct (pass_agree HP (S (length l)) 0 R false Hl) as [E H]. rewrite E in *.
  destruct (pass cmp' (S (length l)) l 0 R false) as [[[l' r] s]| |]; cbn [rbind]; try reflexivity.
  destruct s; [|reflexivity]. apply IH. eapply H. reflexivity.
Qed.
Lemma sort_agree (cmp cmp' : A -> A -> Z) l : (forall a b, In a l -> In b l -> cmp a b = cmp' a b) ->
  slist_sort cmp l = slist_sort cmp' l.
Proof.
  intro H. unfold slist_sort. destruct l as [|a l]; [reflexivity|].
  apply sort_loop_agree with (P := fun x => In x (a :: l)); [exact H|]. apply Forall_forall. auto.
Qed.
Variable g : C -> A.
Definition rmap {X Y} (f : X -> Y) (r : res X) : res Y := do x <- r ; Ok (f x).
Lemma pass_map (cmp : A -> A -> Z) : forall fuel l i R sw,
  pass cmp fuel (map g l) i R sw = rmap (fun x => let '(l', r, s) := x in (map g l', r, s)) (pass (fun a b => cmp (g a) (g b)) fuel l i R sw).
Proof.
  induction fuel as [|fuel IH]; intros l i R sw; cbn [pass]; [reflexivity|].
  rewrite !nth_error_map. destruct (nth_error l i) as [a|]; cbn [option_map]; [|reflexivity].
  destruct (Nat.eqb (i + 1) R); [reflexivity|].
  destruct (nth_error l (i + 1)) as [b|]; cbn [option_map]; [|reflexivity].
  destruct (0 <? cmp (g a) (g b))%Z; [|apply IH]. rewrite <- IH. f_equal.
  unfold swap_at. rewrite map_app. cbn [map]. rewrite firstn_map, skipn_map. reflexivity.
Qed.
Lemma sort_map (cmp : A -> A -> Z) l :
  slist_sort cmp (map g l) = rmap (map g) (slist_sort (fun a b => cmp (g a) (g b)) l).
Proof.
  unfold slist_sort. destruct l as [|a l]; [reflexivity|]. cbn [map].
  change (g a :: map g l) with (map g (a :: l)). rewrite map_length.
  generalize (length (a :: l)) at 1 3 as fuel. generalize (length (a :: l)) as R. generalize (a :: l) as k. clear a l.
  intros k R fuel. revert k R. induction fuel as [|fuel IH]; intros k R; cbn [sort_loop]; [reflexivity|].
  rewrite map_length, pass_map. unfold rmap at 1.
  destruct (pass (fun a b => cmp (g a) (g b)) (S (length k)) k 0 R false) as [[[l' r] s]| |]; cbn [rbind]; try reflexivity.
  destruct s; [apply IH|reflexivity].
Qed.
End SortMore.

(* ---------- pages ---------- *)
Lemma chop_nth {A} n : 0 < n -> forall p fuel (l : list A), length l <= fuel ->
  nth p (chop fuel n l) [] = firstn n (skipn (p * n) l).
Proof.
  intros Hn. induction p as [|p IH]; intros fuel l Hl.
  - destruct fuel as [|fuel]; destruct l as [|a l]; cbn [length] in Hl; try lia; cbn [chop nth Nat.mul skipn]; rewrite ?firstn_nil; reflexivity.
  - destruct fuel as [|fuel]; destruct l as [|a l]; cbn [length] in Hl; try lia; cbn [chop nth]; rewrite ?skipn_nil, ?firstn_nil; try reflexivity.
    rewrite IH by (rewrite skipn_length; cbn [length]; lia). rewrite skipn_add. reflexivity.
Qed.
Lemma chop_concat {A} n : 0 < n -> forall fuel (l : list A), length l <= fuel -> concat (chop fuel n l) = l.
Proof.
  intro Hn. induction fuel as [|fuel IH]; intros [|a l] Hl; cbn [length] in Hl; try lia; try reflexivity.
  cbn [chop concat]. rewrite IH by (rewrite skipn_length; cbn [length]; lia). apply firstn_skipn.
Qed.
Lemma chop_sizes {A} n : 0 < n -> forall fuel (l : list A), length l <= fuel ->
  Forall (fun x => 0 < length x <= n) (chop fuel n l) /\ Forall (fun x => length x = n) (removelast (chop fuel n l)).
Proof.
  intro Hn. induction fuel as [|fuel IH]; intros [|a l] Hl; cbn [length] in Hl; try lia; [split; constructor|split; constructor|].
  assert (Hs : length (skipn n (a :: l)) <= fuel) by (rewrite skipn_length; cbn [length]; lia). split.
  - cbn [chop]. constructor; [rewrite firstn_length; cbn [length]; lia|]. apply IH. exact Hs.
  - cbn [chop removelast]. destruct (chop fuel n (skipn n (a :: l))) eqn:E; [constructor|]. constructor.
    + rewrite firstn_length. apply Nat.min_l. destruct (Nat.le_gt_cases n (length (a :: l))); [assumption|].
      rewrite skipn_all2 in E by lia. destruct fuel; discriminate.
    + rewrite <- E. apply IH. exact Hs.
Qed.
Lemma chop_length {A} n : 0 < n -> forall fuel (l : list A), length l <= fuel ->
  length (chop fuel n l) = (length l + (n - 1)) / n.
Proof.
  intro Hn. induction fuel as [|fuel IH]; intros [|a l] Hl; cbn [length] in Hl; try lia.
  - cbn [chop length]. rewrite Nat.div_small by lia. reflexivity.
  - cbn [chop length]. rewrite Nat.div_small by lia. reflexivity.
  - cbn [chop]. cbn [length]. rewrite IH by (rewrite skipn_length; cbn [length]; lia). rewrite skipn_length. cbn [length].
    destruct (Nat.le_gt_cases n (S (length l))).
    + replace (S (length l) + (n - 1)) with (S (length l) - n + (n - 1) + 1 * n) by lia. rewrite Nat.div_add by lia. lia.
    + replace (S (length l) - n) with 0 by lia. rewrite (Nat.div_small (0 + (n - 1))) by lia.
      apply (Nat.div_unique _ _ 1 (length l)); lia.
Qed.

(* ---------- floats ---------- *)
#[local] Open Scope Z_scope.
(* rounding keeps the order relative to integers, and moves by a half at most *)
Lemma round_even_le n d k : 0 < d -> n <= k * d -> round_even n d <= k.
Proof.
  intros Hd H. unfold round_even. pose proof (Z.div_mod n d ltac:(lia)) as E. pose proof (Z.mod_pos_bound n d Hd) as Hm.
  assert (n / d <= k) by nia. destruct (Z.eq_dec (n / d) k) as [K|K].
  - assert (n mod d = 0) by nia. replace (2 * (n mod d)) with 0 by lia. destruct (Z.ltb_spec 0 d); lia.
  - destruct (Z.ltb_spec (2 * (n mod d)) d); [lia|]. destruct (Z.ltb_spec d (2 * (n mod d))); [lia|]. destruct (Z.even (n / d)); lia.
Qed.
Lemma round_even_gt n d k : 0 < d -> d < 2 * (n - k * d) -> k < round_even n d.
Proof.
  intros Hd H. unfold round_even. pose proof (Z.div_mod n d ltac:(lia)) as E. pose proof (Z.mod_pos_bound n d Hd) as Hm.
  assert (k <= n / d) by nia. destruct (Z.eq_dec (n / d) k) as [K|K].
  - assert (n mod d = n - k * d) by nia. destruct (Z.ltb_spec (2 * (n mod d)) d); [lia|]. destruct (Z.ltb_spec d (2 * (n mod d))); lia.
  - destruct (Z.ltb_spec (2 * (n mod d)) d); [lia|]. destruct (Z.ltb_spec d (2 * (n mod d))); [lia|]. destruct (Z.even (n / d)); lia.
Qed.

Lemma float_div_ceil a b : 0 < a < 2 ^ 24 -> 0 < b -> float_ceil (float_div a b) = (a + (b - 1)) / b.
Proof.
  intros Ha Hb. pose proof (Z.log2_spec a ltac:(lia)) as [A1 A2]. pose proof (Z.log2_spec b Hb) as [B1 B2].
  pose proof (Z.log2_nonneg a) as A0. pose proof (Z.log2_nonneg b) as B0.
  set (la := Z.log2 a) in *. set (lb := Z.log2 b) in *.
  assert (la < 24). { destruct (Z.lt_ge_cases la 24) as [H|H]; [exact H|]. assert (2 ^ 24 <= 2 ^ la) by (apply Z.pow_le_mono_r; lia). lia. }
  unfold float_div. fold la lb. set (e0 := la - lb - 24).
  destruct (Z.leb_spec 0 e0) as [H0|H0]; [lia|].
  set (N := (a + (b - 1)) / b).
  assert (HN : (N - 1) * b + 1 <= a <= N * b).
  { unfold N. pose proof (Z.div_mod (a + (b - 1)) b ltac:(lia)). pose proof (Z.mod_pos_bound (a + (b - 1)) b Hb). nia. }
  assert (K : exists k, 0 <= k /\ 2 ^ 23 * b <= a * 2 ^ k /\
    (let e := if a * 2 ^ (- e0) <? 2 ^ 24 * b then e0 else e0 + 1 in
     float_ceil (let '(n, d) := if 0 <=? e then (a, b * 2 ^ e) else (a * 2 ^ (- e), b) in (round_even n d, e)) =
     - ((- round_even (a * 2 ^ k) b) / 2 ^ k))).
  { destruct (Z.ltb_spec (a * 2 ^ (- e0)) (2 ^ 24 * b)) as [H1|H1].
    - exists (- e0). split; [lia|]. split.
      + assert (E : 2 ^ la * 2 ^ (- e0) = 2 ^ 23 * 2 ^ (lb + 1)). { rewrite <- !Z.pow_add_r by lia. f_equal. lia. }
        assert (0 < 2 ^ (- e0)) by (apply Z.pow_pos_nonneg; lia). change (Z.succ lb) with (lb + 1) in B2. nia.
      + cbv zeta. destruct (Z.leb_spec 0 e0); [lia|]. unfold float_ceil. destruct (Z.leb_spec 0 e0); [lia|]. reflexivity.
    - exists (- (e0 + 1)). split; [lia|]. split.
      + replace (- e0) with (1 + - (e0 + 1)) in H1 by lia. rewrite Z.pow_add_r in H1 by lia. change (2 ^ 24) with (2 * 2 ^ 23) in H1.
        change (2 ^ 1) with 2 in H1. nia.
      + cbv zeta. destruct (Z.leb_spec 0 (e0 + 1)) as [H2|H2].
        * replace (e0 + 1) with 0 by lia. unfold float_ceil. change (0 <=? 0) with true. cbn iota. change (- 0) with 0. change (2 ^ 0) with 1.
          rewrite !Z.mul_1_r, Z.div_1_r. lia.
        * unfold float_ceil. destruct (Z.leb_spec 0 (e0 + 1)); [lia|]. reflexivity. }
  destruct K as (k & Hk & Hs & E). cbv zeta in E. rewrite E.
  assert (P : 0 < 2 ^ k) by (apply Z.pow_pos_nonneg; lia). set (P2 := 2 ^ k) in *.
  assert (U : round_even (a * P2) b <= N * P2) by (apply round_even_le; nia).
  assert (L : (N - 1) * P2 < round_even (a * P2) b). { apply round_even_gt; [exact Hb|]. nia. }
  set (m := round_even (a * P2) b) in *.
  assert (- m / P2 = - N); [|lia]. symmetry. apply (Z.div_unique _ _ _ (- m + N * P2)); nia.
Qed.
Lemma float_of_big n : 2 ^ 24 <= n -> 2 ^ 24 <= float_of n.
Proof.
  intro H. unfold float_of. destruct (Z.ltb_spec n (2 ^ 24)); [lia|].
  pose proof (Z.log2_spec n ltac:(lia)) as [A1 A2]. set (e := Z.log2 n - 23).
  assert (24 <= Z.log2 n) by (apply Z.log2_le_pow2; lia).
  assert (P : 0 < 2 ^ (e - 1)) by (apply Z.pow_pos_nonneg; lia).
  assert (E : 2 ^ e = 2 * 2 ^ (e - 1)) by (replace e with (1 + (e - 1)) at 1 by lia; apply Z.pow_add_r; lia).
  assert (E2 : 2 ^ Z.log2 n = 2 ^ 23 * 2 ^ e) by (rewrite <- Z.pow_add_r by lia; f_equal; lia).
  assert (L : 2 ^ 23 - 1 < round_even n (2 ^ e)) by (apply round_even_gt; nia).
  assert (2 <= 2 ^ e) by nia. nia.
Qed.
Lemma last_page_exact c n : 0 <= c < 2 ^ 24 -> 0 < n -> last_page c n = Ok ((c + (n - 1)) / n).
Proof.
  intros Hc Hn. unfold last_page. destruct (Z.eqb_spec n 0); [lia|]. destruct (Z.eqb_spec c 0) as [-> |H0].
  - rewrite Z.div_small by lia. reflexivity.
  - f_equal. unfold float_of at 1. destruct (Z.ltb_spec c (2 ^ 24)); [|lia].
    destruct (Z.lt_ge_cases n (2 ^ 24)) as [H9|H9].
    + unfold float_of. destruct (Z.ltb_spec n (2 ^ 24)); [|lia]. apply float_div_ceil; lia.
    + pose proof (float_of_big H9). rewrite float_div_ceil by lia.
      rewrite <- (Z.div_unique (c + (float_of n - 1)) (float_of n) 1 (c - 1)) by lia.
      rewrite <- (Z.div_unique (c + (n - 1)) n 1 (c - 1)) by lia. reflexivity.
Qed.

(* ---------- the listing ---------- *)
Lemma select_all ft s e : forall l rv c, select ft false s e l rv c = (rv ++ filter (tag_found ft) l, c).
Proof.
  induction l as [|p l IH]; intros rv c; cbn [select filter]; [rewrite app_nil_r; reflexivity|].
  destruct (tag_found ft p); rewrite IH; [rewrite <- app_assoc|]; reflexivity.
Qed.
Lemma select_some ft s e : 0 <= s <= e -> forall l rv c, 0 <= c ->
  select ft true s e l rv c =
  (rv ++ firstn (Z.to_nat (e - Z.max s c)) (skipn (Z.to_nat (s - c)) (filter (tag_found ft) l)),
   c + Z.of_nat (length (filter (tag_found ft) l))).
Proof.
  intro Hse. induction l as [|p l IH]; intros rv c Hc; cbn [select filter].
  - rewrite skipn_nil, firstn_nil, app_nil_r. cbn [length]. f_equal. lia.
  - destruct (tag_found ft p); [|apply IH; exact Hc]. cbn [length].
    destruct (Z.ltb_spec c s) as [H|H]; cbn [orb].
    + rewrite IH by lia. replace (Z.to_nat (s - c)) with (S (Z.to_nat (s - (c + 1)))) by lia. cbn [skipn].
      replace (Z.max s (c + 1)) with (Z.max s c) by lia. f_equal. lia.
    + replace (Z.to_nat (s - c)) with 0%nat by lia. cbn [skipn]. destruct (Z.leb_spec e c) as [H1|H1].
      * rewrite IH by lia. replace (Z.to_nat (e - Z.max s c)) with 0%nat by lia. replace (Z.to_nat (e - Z.max s (c + 1))) with 0%nat by lia.
        cbn [firstn]. f_equal. lia.
      * rewrite IH by lia. replace (Z.to_nat (s - (c + 1))) with 0%nat by lia. cbn [skipn].
        replace (Z.to_nat (e - Z.max s c)) with (S (Z.to_nat (e - Z.max s (c + 1)))) by lia. cbn [firstn].
        rewrite <- app_assoc. cbn [app]. f_equal. lia.
Qed.

(* ---------- the variables ---------- *)
Definition ins_if (b : bool) (t : trie bytes) (k v : bytes) : trie bytes := if b then trie_insert t k v else t.
Lemma lookup_ins_if b t k v k' : no_nul k -> no_nul k' ->
  trie_lookup (ins_if b t k v) k' = if beq k k' && b then Some v else trie_lookup t k'.
Proof.
  intros Hk Hk'. unfold ins_if. destruct b; [|rewrite andb_false_r; reflexivity]. rewrite trie_lookup_insert by assumption.
  rewrite andb_true_r. reflexivity.
Qed.
Lemma lookup_copy s k k' t x : no_nul k' -> no_nul x ->
  trie_lookup (copy_var s k k' t) x = if beq k' x then now (trie_lookup s k) (trie_lookup t x) else trie_lookup t x.
Proof.
  intros Hk' Hx. unfold copy_var, now. destruct (trie_lookup s k).
  - apply trie_lookup_insert; assumption.
  - destruct (beq k' x); reflexivity.
Qed.
Definition copy_two (p : option (trie bytes)) (k1 k2 : bytes) (conf : trie bytes) : trie bytes :=
  match p with Some s => copy_var s (B "FILENAME") k2 (copy_var s (B "DATE") k1 conf) | None => conf end.
Lemma first_last_false rv : forall conf, first_last false rv conf = copy_two (last_of rv) (B "DATE_LAST") (B "FILENAME_LAST") conf.
Proof.
  induction rv as [|s rv IH]; intro conf; cbn [first_last]; [reflexivity|]. rewrite IH.
  destruct rv as [|t rv]; [reflexivity|]. unfold last_of. cbn [rev].
  destruct (rev rv ++ [t]) as [|x m] eqn:E; [destruct (rev rv); discriminate|]. reflexivity.
Qed.
Lemma first_last_true rv conf : first_last true rv conf =
  copy_two (last_of rv) (B "DATE_LAST") (B "FILENAME_LAST") (copy_two (first_of rv) (B "DATE_FIRST") (B "FILENAME_FIRST") conf).
Proof.
  destruct rv as [|s rv]; [reflexivity|]. cbn [first_last]. rewrite first_last_false.
  destruct rv as [|t rv]; [reflexivity|]. unfold last_of. cbn [rev].
  destruct (rev rv ++ [t]) as [|x m] eqn:E; [destruct (rev rv); discriminate|]. reflexivity.
Qed.
Lemma lookup_copy_two p k1 k2 t x : no_nul k1 -> no_nul k2 -> no_nul x ->
  trie_lookup (copy_two p k1 k2 t) x =
  if beq k2 x then now (var_of p (B "FILENAME")) (if beq k1 x then now (var_of p (B "DATE")) (trie_lookup t x) else trie_lookup t x)
  else if beq k1 x then now (var_of p (B "DATE")) (trie_lookup t x) else trie_lookup t x.
Proof.
  intros H1 H2 Hx. destruct p as [s|]; cbn [copy_two var_of].
  - rewrite lookup_copy by assumption. rewrite !lookup_copy by assumption. reflexivity.
  - cbn [now]. destruct (beq k2 x), (beq k1 x); reflexivity.
Qed.

Lemma nn k : no_nulb k = true -> no_nul k.
Proof. apply no_nulb_spec. Qed.
Lemma not_in_beq k l x : ~ In x l -> In k l -> beq k x = false.
Proof. intros H1 H2. destruct (beq_spec k x) as [->|]; [contradiction|reflexivity]. Qed.

Ltac beqs := repeat match goal with |- context [beq ?a ?b] => let v := eval vm_compute in (beq a b) in progress change (beq a b) with v end; cbn [andb].
Lemma first_last_ok rv conf : first_last_set conf rv (first_last true rv conf) /\
  forall k, no_nul k -> ~ In k listing_vars -> trie_lookup (first_last true rv conf) k = trie_lookup conf k.
Proof.
  rewrite first_last_true. split.
  - unfold first_last_set. refine (conj _ (conj _ (conj _ _))); rewrite !lookup_copy_two by (apply nn; reflexivity); beqs; reflexivity.
  - intros k Hk Hn. rewrite !lookup_copy_two by (try exact Hk; apply nn; reflexivity).
    rewrite (@not_in_beq (B "FILENAME_LAST") listing_vars k Hn) by (unfold listing_vars; cbn [In]; tauto).
    rewrite (@not_in_beq (B "DATE_LAST") listing_vars k Hn) by (unfold listing_vars; cbn [In]; tauto).
    rewrite (@not_in_beq (B "FILENAME_FIRST") listing_vars k Hn) by (unfold listing_vars; cbn [In]; tauto).
    rewrite (@not_in_beq (B "DATE_FIRST") listing_vars k Hn) by (unfold listing_vars; cbn [In]; tauto).
    reflexivity.
Qed.

(* without FILTER_PAGE *)
Lemma listing_all conf sources : trie_lookup conf (B "FILTER_PAGE") = None ->
  let rv := filter (tag_found (trie_lookup conf (B "FILTER_TAG"))) sources in
  listing conf sources = Ok (rv, first_last true rv conf).
Proof.
  intro Hp. unfold listing. rewrite Hp. change (strtol []) with (0, @nil ascii). cbn [fst]. change (0 <=? 0) with true. cbn iota.
  change (1 - 1) with 0. rewrite Z.mul_0_l. change (0 <=? 2 ^ 63 - 1) with true. cbn [rbind]. rewrite select_all. reflexivity.
Qed.

Definition paged_conf (conf : trie bytes) (rv : list (trie bytes)) (page last : Z) : trie bytes :=
  ins_if (0 <? last) (ins_if (Nat.ltb 0 (length rv)) (ins_if (page <? last) (ins_if (1 <? page)
    (ins_if true (first_last true rv conf) (B "CURRENT_PAGE") (print_z page))
    (B "PREVIOUS_PAGE") (print_z (page - 1))) (B "NEXT_PAGE") (print_z (page + 1))) (B "FIRST_PAGE") (B "1"))
    (B "LAST_PAGE") (print_z (to_int last)).
Lemma listing_paged conf sources s zp n last : trie_lookup conf (B "FILTER_PAGE") = Some s -> long_int s zp ->
  per_page_of conf n -> 0 < n < 2 ^ 63 -> (Z.max 1 zp - 1) * n < 2 ^ 63 ->
  let fl := filter (tag_found (trie_lookup conf (B "FILTER_TAG"))) sources in
  last_page (Z.of_nat (length fl)) n = Ok last ->
  let rv := firstn (Z.to_nat n) (skipn (Z.to_nat ((Z.max 1 zp - 1) * n)) fl) in
  listing conf sources = Ok (rv, paged_conf conf rv (Z.max 1 zp) last).
Proof.
  intros Hp Hz Hn Hpos Hov fl Hl rv. unfold listing. rewrite Hp. rewrite (long_strtol Hz). cbn [fst].
  assert (E1 : (if zp <=? 0 then 1 else zp) = Z.max 1 zp) by (destruct (Z.leb_spec zp 0); lia). rewrite E1.
  assert (E2 : fst (strtol match trie_lookup conf (B "FILTER_PER_PAGE") with Some p => p | None => B "10" end) = n).
  { unfold per_page_of in Hn. destruct (trie_lookup conf (B "FILTER_PER_PAGE")); [rewrite (long_strtol Hn); reflexivity|rewrite Hn; reflexivity]. }
  rewrite E2. assert (E3 : (if n <? 0 then 0 else n) = n) by (destruct (Z.ltb_spec n 0); lia). rewrite E3.
  destruct (Z.leb_spec ((Z.max 1 zp - 1) * n) (2 ^ 63 - 1)); [|lia]. cbn [rbind].
  assert (0 <= (Z.max 1 zp - 1) * n) by nia.
  rewrite Z.mod_small by lia. rewrite select_some by lia. fold fl. cbn [app].
  replace (Z.to_nat ((Z.max 1 zp - 1) * n + n - Z.max ((Z.max 1 zp - 1) * n) 0)) with (Z.to_nat n) by lia.
  rewrite Z.sub_0_r. fold rv. rewrite Z.add_0_l, Hl. cbn [rbind]. reflexivity.
Qed.
Lemma paged_conf_ok conf rv page last : 
  let conf' := paged_conf conf rv page last in
  first_last_set conf rv conf' /\
  trie_lookup conf' (B "CURRENT_PAGE") = Some (print_z page) /\
  trie_lookup conf' (B "PREVIOUS_PAGE") = opt_if (1 <? page) (print_z (page - 1)) (trie_lookup conf (B "PREVIOUS_PAGE")) /\
  trie_lookup conf' (B "NEXT_PAGE") = opt_if (page <? last) (print_z (page + 1)) (trie_lookup conf (B "NEXT_PAGE")) /\
  trie_lookup conf' (B "FIRST_PAGE") = opt_if (Nat.ltb 0 (length rv)) (B "1") (trie_lookup conf (B "FIRST_PAGE")) /\
  trie_lookup conf' (B "LAST_PAGE") = opt_if (0 <? last) (print_z (to_int last)) (trie_lookup conf (B "LAST_PAGE")) /\
  forall k, no_nul k -> ~ In k listing_vars -> ~ In k page_vars -> trie_lookup conf' k = trie_lookup conf k.
Proof.
  cbv zeta. unfold paged_conf. destruct (first_last_ok rv conf) as ((F1 & F2 & F3 & F4) & F5).
  split; [|split; [|split; [|split; [|split; [|split]]]]].
  - unfold first_last_set. refine (conj _ (conj _ (conj _ _))); rewrite !lookup_ins_if by (apply nn; reflexivity); beqs; [exact F1|exact F2|exact F3|exact F4].
  - rewrite !lookup_ins_if by (apply nn; reflexivity). beqs. reflexivity.
  - rewrite !lookup_ins_if by (apply nn; reflexivity). beqs. rewrite F5 by (first [apply nn; reflexivity|intro H; vm_compute in H; intuition discriminate]). reflexivity.
  - rewrite !lookup_ins_if by (apply nn; reflexivity). beqs. rewrite F5 by (first [apply nn; reflexivity|intro H; vm_compute in H; intuition discriminate]). reflexivity.
  - rewrite !lookup_ins_if by (apply nn; reflexivity). beqs. rewrite F5 by (first [apply nn; reflexivity|intro H; vm_compute in H; intuition discriminate]). reflexivity.
  - rewrite !lookup_ins_if by (apply nn; reflexivity). beqs. rewrite F5 by (first [apply nn; reflexivity|intro H; vm_compute in H; intuition discriminate]). reflexivity.
  - intros k Hk H1 H2. rewrite !lookup_ins_if by (try exact Hk; apply nn; reflexivity).
    rewrite (@not_in_beq (B "LAST_PAGE") page_vars k H2) by (unfold page_vars; cbn [In]; tauto).
    rewrite (@not_in_beq (B "FIRST_PAGE") page_vars k H2) by (unfold page_vars; cbn [In]; tauto).
    rewrite (@not_in_beq (B "NEXT_PAGE") page_vars k H2) by (unfold page_vars; cbn [In]; tauto).
    rewrite (@not_in_beq (B "PREVIOUS_PAGE") page_vars k H2) by (unfold page_vars; cbn [In]; tauto).
    rewrite (@not_in_beq (B "CURRENT_PAGE") page_vars k H2) by (unfold page_vars; cbn [In]; tauto).
    cbn [andb]. apply F5; assumption.
Qed.

(* ---------- loading ---------- *)
Lemma rev_fold {A} (l acc : list A) : fold_left (fun acc s => s :: acc) l acc = rev l ++ acc.
Proof.
  revert acc. induction l as [|x l IH]; intro acc; [reflexivity|]. cbn [fold_left rev]. rewrite IH, <- app_assoc. reflexivity.
Qed.
Definition ndated (ps : list (trie bytes)) : nat := length (filter (fun p => match trie_lookup p (B "DATE") with Some _ => true | None => false end) ps).
Lemma ndated_le ps : (ndated ps <= length ps)%nat.
Proof. unfold ndated. induction ps as [|p ps IH]; [reflexivity|]. cbn [filter]. destruct (trie_lookup p (B "DATE")); cbn [length]; lia. Qed.
Lemma ndated_uniform ps : uniform ps <-> (ndated ps = 0 \/ ndated ps = length ps)%nat.
Proof.
  assert (K1 : Forall has_date ps <-> ndated ps = length ps).
  { induction ps as [|p ps IH]; [split; [reflexivity|constructor]|]. rewrite Forall_cons_iff, IH. unfold ndated, has_date in *. cbn [filter].
    pose proof (ndated_le ps) as L. unfold ndated in L. destruct (trie_lookup p (B "DATE")); cbn [length]; (split; [intros [H1 H2]|intro H3; split]); try lia; try congruence. }
  assert (K0 : Forall (fun p => ~ has_date p) ps <-> ndated ps = 0%nat).
  { clear K1. induction ps as [|p ps IH]; [split; [reflexivity|constructor]|]. rewrite Forall_cons_iff, IH. unfold ndated, has_date in *. cbn [filter].
    destruct (trie_lookup p (B "DATE")); cbn [length]; (split; [intros [H1 H2]|intro H3; split]); try lia; try congruence; exfalso; apply H1; discriminate. }
  unfold uniform. rewrite K1, K0. tauto.
Qed.

Lemma Forall2_length {A C} (R : A -> C -> Prop) l m : Forall2 R l m -> length l = length m.
Proof. induction 1; cbn [length]; congruence. Qed.

Section Load.
Variable contents : bytes -> option bytes.
Variable mktime : tm -> tm.
Variable strftime : bytes -> tm -> option bytes.
Variable fuel : nat.
Variable conf : trie bytes.
Notation from_file := (source_parse_from_file contents fuel conf).
Notation loads := (Forall2 (fun f p => from_file f = Ok (Loaded p))).
Notation load := (load_go contents mktime strftime fuel conf).
Definition sorting : bool := str_to_bool (trie_lookup conf (B "FILTER_SORT")).
Definition reversing : bool := str_to_bool (trie_lookup conf (B "FILTER_REVERSE")).

Lemma load_plain l ps : loads l ps -> forall acc n, load false l acc n = Ok (Loaded (acc ++ ps, n + ndated ps)%nat).
Proof.
  induction 1 as [|f p l ps Hf Hl IH]; intros acc n; cbn [load_go].
  - rewrite app_nil_r. unfold ndated. cbn [filter length]. rewrite Nat.add_0_r. reflexivity.
  - rewrite Hf. cbn [rbind]. rewrite IH, <- app_assoc. cbn [app]. unfold ndated. cbn [filter].
    destruct (trie_lookup p (B "DATE")); cbn [length]; do 2 f_equal; f_equal; lia.
Qed.

Variable seconds : tm -> Z.
Hypothesis stamps : forall t, exists s, strftime (B "%s") (mktime t) = Some s /\ written (seconds t) s.
Hypothesis stamp_range : forall t, - 2 ^ 63 <= seconds t < 2 ^ 63.

Definition key (p : trie bytes) : Z := match time_of seconds p with Some z => z | None => 0 end.
Definition mark (p : trie bytes) : bytes :=
  match trie_lookup p (B "DATE") with
  | Some d => match dt_parse d with Datatypes.inl t => match strftime (B "%s") (mktime t) with Some s => s | None => [] end | Datatypes.inr _ => [] end
  | None => []
  end.
Definition stamp (p : trie bytes) : trie bytes := trie_insert p (B "c") (mark p).
Definition has_time (p : trie bytes) : Prop := time_of seconds p <> None.
Lemma time_convert p : has_time p -> exists d, trie_lookup p (B "DATE") = Some d /\
  convert_datetime mktime strftime d (B "%s") = Datatypes.inl (mark p) /\ written (key p) (mark p).
Proof.
  unfold has_time, key, mark, time_of, convert_datetime. destruct (trie_lookup p (B "DATE")) as [d|]; [|congruence].
  destruct (dt_parse d) as [t|] eqn:E; [|congruence]. intros _. exists d. destruct (stamps t) as (x & Ex & Hx). rewrite E, Ex. auto.
Qed.
Lemma load_sorting l ps : loads l ps -> Forall has_time ps -> forall acc n, load true l acc n = Ok (Loaded (acc ++ map stamp ps, n + length ps)%nat).
Proof.
  induction 1 as [|f p l ps Hf Hl IH]; intros Ht acc n; cbn [load_go map length].
  - rewrite app_nil_r, Nat.add_0_r. reflexivity.
  - rewrite Forall_cons_iff in Ht. destruct Ht as [Hp Ht]. rewrite Hf. cbn [rbind].
    destruct (time_convert Hp) as (d & E1 & E2 & _). rewrite E1, E2. rewrite IH by exact Ht. rewrite <- app_assoc. do 2 f_equal. f_equal. lia.
Qed.
(* without a date for every post: an error *)
Lemma load_undated l ps : loads l ps -> ~ Forall has_time ps -> forall acc n, exists e, load true l acc n = Ok (Failed e).
Proof.
  induction 1 as [|f p l ps Hf Hl IH]; intros Ht acc n; cbn [load_go]; [exfalso; apply Ht; constructor|].
  rewrite Hf. cbn [rbind]. unfold convert_datetime.
  destruct (trie_lookup p (B "DATE")) as [d|] eqn:Ed; [|eexists; reflexivity].
  destruct (dt_parse d) as [t|] eqn:Et; [|eexists; reflexivity]. destruct (stamps t) as (x & Ex & _). rewrite Ex. apply IH.
  intro H. apply Ht. constructor; [|exact H]. unfold has_time, time_of. rewrite Ed, Et. discriminate.
Qed.

(* the comparison *)
Lemma compare_stamps a b : has_time a -> has_time b -> - 2 ^ 31 <= key b - key a < 2 ^ 31 -> sort_source (stamp a) (stamp b) = key b - key a.
Proof.
  intros Ta Tb H. destruct (time_convert Ta) as (_ & _ & _ & Wa). destruct (time_convert Tb) as (_ & _ & _ & Wb). unfold sort_source, stamp. rewrite !trie_lookup_insert by (apply nn; reflexivity). rewrite !beq_refl.
  assert (R : forall p, - 2 ^ 63 <= key p < 2 ^ 63).
  { intro p. unfold key, time_of. destruct (trie_lookup p (B "DATE")) as [dd|]; [|lia]. destruct (dt_parse dd); [apply stamp_range|lia]. }
  rewrite (written_strtoul Wa (R _)), (written_strtoul Wb (R _)). rewrite <- Zminus_mod, to_int_mod. apply to_int_small. exact H.
Qed.
Notation close := (within_68_years seconds).
Lemma sort_stamps ps : Forall has_time ps -> close ps -> forall rv : bool,
  exists qs, slist_sort (if rv then sort_source_reverse else sort_source) (map stamp ps) = Ok qs /\
    arranged seconds true rv ps qs.
Proof.
  intros Ht Hc rv. rewrite sort_map.
  assert (Hk : forall p, In p ps -> dated seconds p (key p)).
  { intros p Hp. rewrite Forall_forall in Ht. specialize (Ht p Hp). unfold dated, key. unfold has_time in Ht. destruct (time_of seconds p); [reflexivity|congruence]. }
  set (cmp := fun a b => if rv then key a - key b else key b - key a).
  assert (E : slist_sort (fun a b => (if rv then sort_source_reverse else sort_source) (stamp a) (stamp b)) ps = slist_sort cmp ps).
  { apply sort_agree. intros a b Ha Hb.
    pose proof (Hc a b _ _ Ha Hb (Hk a Ha) (Hk b Hb)). pose proof (Hc b a _ _ Hb Ha (Hk b Hb) (Hk a Ha)).
    unfold cmp. destruct rv; [unfold sort_source_reverse|]; apply compare_stamps; try lia; rewrite Forall_forall in Ht; auto. }
  rewrite E.
  destruct (@sort_preorder _ cmp) with (l := ps) as (ss & Es & H1 & H2).
  { intros a b. unfold SortProofs.le, cmp. destruct rv; lia. }
  { intros a b c. unfold SortProofs.le, cmp. destruct rv; lia. }
  destruct (@sort_any _ cmp ps) as (ss' & Es' & H3). rewrite Es in Es'. injection Es' as <-.
  exists (map stamp ss). rewrite Es. split; [reflexivity|]. unfold arranged. exists ss. split; [exact H3|].
  assert (Hin : forall p, In p ss -> In p ps) by (intros p Hp; eapply Permutation_in; [symmetry; exact H3|exact Hp]).
  split; [|split].
  - clear -H1 Hin Hk. induction H1 as [|a ss Hs IH Ha]; [constructor|]. constructor.
    + apply IH. intros p Hp. apply Hin. right. exact Hp.
    + rewrite Forall_forall in *. intros b Hb. exists (key a), (key b). split; [apply Hk, Hin; left; reflexivity|].
      split; [apply Hk, Hin; right; exact Hb|]. specialize (Ha b Hb). unfold SortProofs.le, cmp in Ha. destruct rv; lia.
  - intro z.
    assert (G : forall w l, (forall p, In p l -> In p ps) -> dated seconds w z -> filter (at_time seconds z) l = filter (eqvb cmp w) l).
    { intros w l Hl Hw. apply filter_ext_in. intros p Hp. specialize (Hk p (Hl p Hp)). unfold at_time. rewrite Hk.
      assert (Kw : key w = z) by (unfold key; rewrite Hw; reflexivity).
      unfold eqvb, leb, cmp. destruct rv; destruct (Z.eqb_spec (key p) z);
        rewrite ?andb_true_iff, ?Z.leb_le; symmetry; try (apply andb_true_iff; rewrite !Z.leb_le; lia);
        apply andb_false_iff; rewrite !Z.leb_gt; lia. }
    destruct (existsb (at_time seconds z) ps) eqn:Ex.
    + apply existsb_exists in Ex. destruct Ex as (w & Hw & Ew).
      assert (Dw : dated seconds w z).
      { unfold at_time in Ew. specialize (Hk w Hw). unfold dated in *. rewrite Hk in *. f_equal. apply Z.eqb_eq. exact Ew. }
      rewrite (G w ss Hin Dw), (G w ps (fun p H => H) Dw). apply H2.
    + assert (N : forall l, (forall p, In p l -> In p ps) -> filter (at_time seconds z) l = []).
      { induction l as [|p l IH]; intro Hl; [reflexivity|]. cbn [filter].
        destruct (at_time seconds z p) eqn:Ep; [|apply IH; intros; apply Hl; right; assumption].
        assert (existsb (at_time seconds z) ps = true); [|congruence]. apply existsb_exists. exists p. split; [apply Hl; left; reflexivity|exact Ep]. }
      rewrite (N ss Hin), (N ps (fun p H => H)). reflexivity.
  - clear. induction ss as [|p ss IH]; cbn [map]; [constructor|]. constructor; [|exact IH].
    intros k Hk Hne. unfold stamp. rewrite trie_lookup_insert by (try exact Hk; apply nn; reflexivity).
    destruct (beq_spec (B "c") k); [congruence|reflexivity].
Qed.

Lemma gather_ok l ps : loads l ps -> uniform ps -> (sorting = true -> Forall has_time ps /\ close ps) ->
  exists qs, gather contents mktime strftime fuel conf l = Ok (Loaded qs) /\ arranged seconds sorting reversing ps qs.
Proof.
  intros Hl Hu Hs. unfold gather. fold sorting. fold reversing. pose proof (Forall2_length Hl) as Hlen. destruct sorting.
  - destruct (Hs eq_refl) as [Ht Hc]. rewrite (load_sorting Hl Ht). cbn [app rbind Nat.add].
    rewrite Hlen, Nat.ltb_irrefl, andb_false_r. destruct (sort_stamps Ht Hc reversing) as (qs & E & H). rewrite E. cbn [rbind].
    exists qs. split; [reflexivity|exact H].
  - rewrite (load_plain Hl). cbn [app rbind Nat.add]. apply ndated_uniform in Hu.
    assert (E : Nat.ltb 0 (ndated ps) && Nat.ltb (ndated ps) (length l) = false).
    { rewrite Hlen. destruct Hu as [-> | ->]; [reflexivity|]. rewrite Nat.ltb_irrefl, andb_false_r. reflexivity. }
    rewrite E. eexists. split; [reflexivity|]. unfold arranged. destruct reversing; [|reflexivity]. rewrite rev_fold, app_nil_r. reflexivity.
Qed.
Lemma gather_mixed l ps : loads l ps -> ~ uniform ps -> exists e, gather contents mktime strftime fuel conf l = Ok (Failed e).
Proof.
  intros Hl Hu. unfold gather. fold sorting. pose proof (Forall2_length Hl) as Hlen. destruct sorting.
  - destruct (@load_undated l ps Hl) with (acc := @nil (trie bytes)) (n := 0%nat) as (e & E).
    { intro H. apply Hu. left. eapply Forall_impl; [|exact H]. intros p Hp. unfold has_time, time_of in Hp. unfold has_date.
      destruct (trie_lookup p (B "DATE")); congruence. }
    rewrite E. exists e. reflexivity.
  - rewrite (load_plain Hl). cbn [app rbind Nat.add]. rewrite ndated_uniform in Hu. pose proof (ndated_le ps).
    assert (E : Nat.ltb 0 (ndated ps) && Nat.ltb (ndated ps) (length l) = true).
    { rewrite Hlen, andb_true_iff, !Nat.ltb_lt. lia. }
    rewrite E. eexists. reflexivity.
Qed.
Lemma gather_undated l ps : loads l ps -> sorting = true -> ~ Forall has_time ps -> exists e, gather contents mktime strftime fuel conf l = Ok (Failed e).
Proof.
  intros Hl Hs Ht. unfold gather. fold sorting. rewrite Hs.
  destruct (@load_undated l ps Hl Ht [] 0%nat) as (e & E). rewrite E. exists e. reflexivity.
Qed.
Lemma gather_unreadable l ps f e r : loads l ps -> from_file f = Ok (Failed e) -> 
  exists e', gather contents mktime strftime fuel conf (l ++ f :: r) = Ok (Failed e').
Proof.
  intros Hl Hf. unfold gather. fold sorting.
  assert (K : forall b acc n, exists e', load b (l ++ f :: r) acc n = Ok (Failed e')).
  { intro b. induction Hl as [|g p l ps Hg Hl IH]; intros acc n; cbn [app load_go].
    - rewrite Hf. eexists. reflexivity.
    - rewrite Hg. cbn [rbind]. destruct b; [|apply IH]. destruct (trie_lookup p (B "DATE")); [|eexists; reflexivity].
      destruct (convert_datetime _ _ _ _); [apply IH|eexists; reflexivity]. }
  destruct (K sorting [] 0%nat) as (e' & E). rewrite E. exists e'. reflexivity.
Qed.
End Load.
