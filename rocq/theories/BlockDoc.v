(* Lists, and whole documents. *)
From Coq Require Import NArith.
From Verif Require Import Base Utils UtilsProofs Toctree Content InlineSpec InlineProofs InlineFwd BlockSpec BlockProofs BlockTerm BlockOut BlockLoop DocSpec BlockFwd BlockLine.
#[local] Arguments B : simpl never.

(* ---------- small facts ---------- *)
Lemma escape_byte_esc1 c : escape_byte c = esc1 c.
Proof.
  unfold escape_byte, esc1, entity.
  destruct (c == "&"%char); [reflexivity|]. destruct (c == "<"%char); [reflexivity|]. destruct (c == ">"%char); [reflexivity|].
  destruct (c == DQ); [reflexivity|]. destruct (c == SQ); [reflexivity|]. destruct (c == "/"%char); reflexivity.
Qed.
Lemma escape_htmlentities t : htmlentities t = escape t.
Proof. induction t as [|c t IH]; [reflexivity|]. cbn. rewrite escape_byte_esc1. f_equal. exact IH. Qed.

Lemma anchor_slug t sl : anchor t sl -> slugify t = sl.
Proof.
  induction 1 as [|c d t sl (H1 & H2 & H3) H IH]; [reflexivity|]. cbn. f_equal; [|exact IH].
  unfold slug_char. destruct (is_lower c); [symmetry; auto|]. destruct (is_digit c); [symmetry; auto|].
  destruct (is_upper c); [|symmetry; auto]. destruct (H2 eq_refl) as [_ E]. rewrite <- E. apply ascii_N_embedding.
Qed.

(* decimal notation without leading zeros is unique *)
Definition dnum (d : bytes) : nat := fold_left (fun acc c => acc * 10 + (N.to_nat (nb c) - 48)) d 0.
Lemma dval_snoc d c : dnum (d ++ [c]) = dnum d * 10 + (N.to_nat (nb c) - 48).
Proof. unfold dnum. rewrite fold_left_app. reflexivity. Qed.
Lemma digit_range c : is_digit c = true -> 48 <= N.to_nat (nb c) <= 57.
Proof. unfold is_digit, in_range. intro H. apply andb_true_iff in H. destruct H as [H1 H2]. apply N.leb_le in H1, H2.
  change (nb "0") with 48%N in H1. change (nb "9") with 57%N in H2. lia. Qed.
Lemma nb_inj c d : N.to_nat (nb c) = N.to_nat (nb d) -> c = d.
Proof. intro H. apply N2Nat.inj in H. unfold nb in H. rewrite <- (ascii_N_embedding c), H. apply ascii_N_embedding. Qed.
Lemma dval_pos d : d <> [] -> Forall (fun c => is_digit c = true) d -> hd NUL d <> "0"%char -> 1 <= dnum d.
Proof.
  induction d as [|c d IH] using rev_ind; intros Hn Hd Hh; [contradiction|]. rewrite dval_snoc.
  apply Forall_app in Hd. destruct Hd as [Hd Hc]. apply Forall_cons_iff in Hc. destruct Hc as [Hc _].
  destruct d as [|a d].
  - cbn [app hd] in Hh. pose proof (digit_range Hc). enough (N.to_nat (nb c) <> 48) by (cbn; lia).
    intro E. apply Hh. apply nb_inj. exact E.
  - specialize (IH ltac:(discriminate) Hd Hh). lia.
Qed.
Lemma dval_inj : forall d d', Forall (fun c => is_digit c = true) d -> Forall (fun c => is_digit c = true) d' ->
  (d <> [] -> hd NUL d <> "0"%char) -> (d' <> [] -> hd NUL d' <> "0"%char) -> dnum d = dnum d' -> d = d'.
Proof.
  induction d as [|c d IH] using rev_ind; intros d' Hd Hd' Hh Hh' E.
  - destruct d' as [|a d']; [reflexivity|]. exfalso.
    pose proof (@dval_pos (a :: d') ltac:(discriminate) Hd' (Hh' ltac:(discriminate))). rewrite <- E in H. cbn in H. lia.
  - destruct (list_last_inv d') as [->|(d2 & c2 & ->)].
    + exfalso. assert (Hne : d ++ [c] <> []) by (destruct d; discriminate).
      pose proof (dval_pos Hne Hd (Hh Hne)). rewrite E in H. cbn in H. lia.
    + rewrite !dval_snoc in E. apply Forall_app in Hd, Hd'. destruct Hd as [Hd Hc], Hd' as [Hd' Hc'].
      apply Forall_cons_iff in Hc, Hc'. destruct Hc as [Hc _], Hc' as [Hc' _].
      pose proof (digit_range Hc). pose proof (digit_range Hc').
      assert (E1 : dnum d = dnum d2) by lia. assert (E2 : c = c2) by (apply nb_inj; lia).
      subst c2. f_equal. apply IH; auto.
      * intro Hn. destruct d; [contradiction|]. apply Hh. discriminate.
      * intro Hn. destruct d2; [contradiction|]. apply Hh'. discriminate.
Qed.

Lemma dec_go_hd fuel : forall n acc, (1 <= n)%N -> (n < 10 ^ N.of_nat fuel)%N -> hd NUL (dec_go fuel n acc) <> "0"%char.
Proof.
  induction fuel as [|f IH]; intros n acc H1 H2; [cbn in H2; lia|]. cbn [dec_go].
  destruct (N.eqb_spec (n / 10) 0) as [E|E].
  - cbn [hd]. assert (Hm : (n mod 10 = n)%N) by (apply N.mod_small; apply N.div_small_iff in E; lia). rewrite Hm.
    apply N.div_small_iff in E; [|lia]. intro X. apply (f_equal N_of_ascii) in X. rewrite N_ascii_embedding in X by lia.
    change (N_of_ascii "0"%char) with 48%N in X. lia.
  - apply IH; [lia|]. rewrite Nat2N.inj_succ, N.pow_succ_r' in H2. apply N.div_lt_upper_bound; lia.
Qed.
Lemma dec_unique n d : 1 <= n -> decimal n d -> hd NUL d <> "0"%char -> dec (N.of_nat n) = d.
Proof.
  intros Hn (H1 & H2 & H3) H4. destruct (dec_decimal n) as (K1 & K2 & K3).
  apply dval_inj; auto; [|unfold dnum; congruence].
  intros _. unfold dec. apply dec_go_hd; [lia|].
  set (m := N.of_nat n). rewrite Nat2N.inj_succ, N2Nat.id.
  pose proof (N.log2_spec m ltac:(unfold m; lia)) as [_ L].
  eapply N.lt_le_trans; [exact L|]. apply N.pow_le_mono_l. lia.
Qed.

(* descriptions *)
Lemma white_blank c : white c = true <-> UtilsProofs.blank c.
Proof. unfold white, UtilsProofs.blank. rewrite existsb_exists. split; [intros (d & H & E); apply eqb_true in E; subst d; exact H|intro H; exists c; split; [exact H|apply eqb_true; reflexivity]]. Qed.
Lemma ltrim_spec t : exists p, t = p ++ ltrim t /\ Forall UtilsProofs.blank p /\ (forall c r, ltrim t = c :: r -> ~ UtilsProofs.blank c).
Proof.
  induction t as [|c t (p & E & Hp & Hn)]; [exists []; repeat split; auto; discriminate|]. cbn [ltrim]. destruct (white c) eqn:W.
  - exists (c :: p). split; [cbn [app]; f_equal; exact E|]. split; [constructor; [apply white_blank, W|exact Hp]|exact Hn].
  - exists []. split; [reflexivity|]. split; [constructor|]. intros d r X. injection X as <- _. intro Y. apply white_blank in Y. congruence.
Qed.
Lemma trim_strip t : strip t = trim t.
Proof.
  apply strip_spec. unfold trim. destruct (ltrim_spec t) as (p & E & Hp & Hn). destruct (ltrim_spec (rev (ltrim t))) as (q & E2 & Hq & Hn2).
  set (u := ltrim (rev (ltrim t))) in *.
  assert (E3 : ltrim t = rev u ++ rev q) by (rewrite <- rev_app_distr, <- E2, rev_involutive; reflexivity).
  exists p, (rev q). split; [rewrite <- E3; exact E|]. split; [exact Hp|]. split; [apply Forall_rev, Hq|]. split.
  - intros x r X. apply (Hn x (r ++ rev q)). rewrite E3, X. reflexivity.
  - intros r x X. apply (Hn2 x (rev r)). rewrite <- (rev_involutive u), X, rev_app_distr. reflexivity.
Qed.
Lemma strip_white c x : is_nl c = true -> strip (c :: x) = strip x.
Proof.
  intro H. apply is_nl_iff in H. assert (W : white c = true) by (destruct H as [-> | ->]; reflexivity).
  rewrite !trim_strip. unfold trim. cbn [ltrim]. rewrite W. reflexivity.
Qed.
Lemma fixd_line l : forall seg r nl, Forall (fun c => is_nl c = false) l -> l <> [] ->
  fixd_go (l ++ r) seg nl = fixd_go r (seg ++ l) false.
Proof.
  induction l as [|c l IH]; intros seg r nl Hl Hn; [contradiction|]. apply Forall_cons_iff in Hl. destruct Hl as [Hc Hl].
  cbn [app fixd_go]. rewrite Hc. destruct l as [|d l].
  - reflexivity.
  - rewrite IH by (auto; discriminate). rewrite <- app_assoc. reflexivity.
Qed.
Lemma fixd_lines e : ending e -> forall ls seg, ls <> [] -> Forall text_line ls -> Forall (fun c => is_nl c = true) seg ->
  forall nl, fixd_go (joined e ls) seg nl = joined [SP] (map strip ls).
Proof.
  intro He.
  assert (Strip : forall seg l, Forall (fun c => is_nl c = true) seg -> strip (seg ++ l) = strip l).
  { induction seg as [|c seg IH]; intros l H; [reflexivity|]. apply Forall_cons_iff in H. destruct H as [Hc H].
    cbn [app]. rewrite strip_white by assumption. apply IH, H. }
  induction ls as [|l ls IH]; intros seg Hn Hls Hseg nl; [contradiction|].
  apply Forall_cons_iff in Hls. destruct Hls as [[Hne Hl] Hls]. apply on_line_nl in Hl.
  destruct ls as [|l2 ls].
  - cbn [joined map]. rewrite <- (app_nil_r l) at 1. rewrite fixd_line by assumption. cbn [fixd_go]. apply Strip, Hseg.
  - change (joined e (l :: l2 :: ls)) with (l ++ e ++ joined e (l2 :: ls)).
    change (joined [SP] (map strip (l :: l2 :: ls))) with (strip l ++ [SP] ++ joined [SP] (map strip (l2 :: ls))).
    rewrite fixd_line by assumption.
    destruct He as [<-|[<-|[<-|[<-|[]]]]]; cbn [app fixd_go].
    + change (is_nl LF) with true. cbn match. rewrite Strip by assumption. f_equal. cbn [app]. f_equal. apply IH; auto; discriminate.
    + change (is_nl CR) with true. cbn match. rewrite Strip by assumption. f_equal. cbn [app]. f_equal. apply IH; auto; discriminate.
    + change (is_nl CR) with true. change (is_nl LF) with true. cbn match. rewrite Strip by assumption. f_equal. cbn [app]. f_equal.
      apply IH; auto; try discriminate.
    + change (is_nl CR) with true. change (is_nl LF) with true. cbn match. rewrite Strip by assumption. f_equal. cbn [app]. f_equal.
      apply IH; auto; try discriminate.
Qed.
Lemma fix_lines e ls : ending e -> ls <> [] -> Forall text_line ls ->
  fix_description (joined e ls) = escape (trim (joined [SP] (map trim ls))).
Proof. intros He Hn Hls. unfold fix_description. rewrite (fixd_lines He) by auto. rewrite <- trim_strip, escape_htmlentities, (map_ext _ _ trim_strip). reflexivity. Qed.

Lemma on_line_no_nul l : on_line l -> no_nul l.
Proof. intros H X. unfold on_line in H. rewrite Forall_forall in H. apply H in X. tauto. Qed.
Lemma ending_no_nul e : ending e -> no_nul e.
Proof. intros H X. pose proof (e_newlines H) as F. rewrite Forall_forall in F. apply F in X. destruct X; discriminate. Qed.
Lemma joined_no_nul e ls : ending e -> Forall on_line ls -> no_nul (joined e ls).
Proof.
  intros He. induction ls as [|l [|l2 ls] IH]; intro H.
  - intros [].
  - apply Forall_cons_iff in H. apply on_line_no_nul, H.
  - apply Forall_cons_iff in H. destruct H as [H1 H2]. change (joined e (l :: l2 :: ls)) with (l ++ e ++ joined e (l2 :: ls)).
    intro X. apply in_app_or in X. destruct X as [X|X]; [apply (on_line_no_nul H1), X|].
    apply in_app_or in X. destruct X as [X|X]; [apply (ending_no_nul He), X|apply (IH H2), X].
Qed.
Lemma markup_inline e ls h : ending e -> Forall on_line ls -> markup (joined e ls) h -> inline (joined e ls) = Ok h.
Proof. intros He Hl [Hm Ho]. apply means_inline; [apply joined_no_nul; assumption|apply even_wsafe, Ho|exact Hm]. Qed.
Lemma markup_inline1 t h : on_line t -> markup t h -> inline t = Ok h.
Proof. intros Hl [Hm Ho]. apply means_inline; [apply on_line_no_nul, Hl|apply even_wsafe, Ho|exact Hm]. Qed.
Lemma text_on ls : Forall text_line ls -> Forall on_line ls.
Proof. apply Forall_impl. intros l [_ H]. exact H. Qed.

Lemma ne_app (l y : bytes) : y <> [] -> l ++ y <> [].
Proof. destruct l; [auto|discriminate]. Qed.

(* ---------- lists ---------- *)
Lemma starts_with_sp c w plen y : c <> SP -> starts_with (repeat SP (S plen) ++ y) (c :: w) = false.
Proof. intro H. cbn. assert (X : (c == SP) = false) by (apply eqb_neq, H). rewrite X. reflexivity. Qed.

Lemma digit_count_app ds y : Forall (fun c => is_digit c = true) ds -> digit_count (ds ++ "."%char :: y) = length ds.
Proof. induction 1 as [|c ds Hc H IH]; [reflexivity|]. cbn. rewrite Hc, IH. reflexivity. Qed.
Lemma skip_sp_app w y : Forall blank w -> skip_sp (w ++ y) (length w) = length w.
Proof. induction 1 as [|c w Hc H IH]; [destruct y; reflexivity|]. cbn. rewrite (blank_sp Hc), IH. reflexivity. Qed.
Lemma ordered_item p l : numbered p -> l <> [] -> is_ordered_item (p ++ l) (length p) = true.
Proof.
  intros (ds & w & -> & Hd & Hds & Hw) Hl. unfold is_ordered_item.
  rewrite <- app_assoc. cbn [app]. rewrite digit_count_app by assumption.
  assert (Hdl : length ds <> 0) by (destruct ds; [contradiction|discriminate]).
  assert (Hll : length l <> 0) by (destruct l; [contradiction|discriminate]).
  rewrite !app_length. cbn [length]. rewrite !app_length.
  replace (Nat.ltb (length ds + S (length w + length l)) 2) with false by (symmetry; apply Nat.ltb_ge; lia).
  rewrite (proj2 (Nat.eqb_neq _ _) Hdl). rewrite app_nth2, Nat.sub_diag by lia. cbn [nth].
  change ("."%char == "."%char) with true. cbn [negb].
  replace (skipn (length ds + 1) (ds ++ "."%char :: w ++ l)) with (w ++ l).
  2:{ change (ds ++ "."%char :: w ++ l) with (ds ++ ["."%char] ++ w ++ l). rewrite app_assoc.
      replace (length ds + 1) with (length (ds ++ ["."%char])) by (rewrite app_length; reflexivity). rewrite skipn_len. reflexivity. }
  replace (length ds + S (length w) - (length ds + 1)) with (length w) by lia. rewrite skip_sp_app by assumption.
  replace (Nat.leb (length ds + S (length w + length l)) (length ds + 1 + length w)) with false by (symmetry; apply Nat.leb_gt; lia).
  apply Nat.eqb_eq. lia.
Qed.
Lemma ordered_sp plen y : is_ordered_item (repeat SP (S plen) ++ y) (S plen) = false.
Proof. unfold is_ordered_item. cbn [repeat app digit_count]. change (is_digit SP) with false. cbn match. destruct (Nat.ltb _ 2); reflexivity. Qed.

Lemma item_src_text p its e : Forall (item_ok e) its -> (forall i, In i its -> exists c w, item_prefix i = c :: w /\ on_line (c :: w)) ->
  (forall i, In i its -> length (item_prefix i) = p) -> p > 0 -> Forall text_line (flat_map item_src its).
Proof.
  intros Hok Hpre Hlen Hp. induction its as [|it its IH]; [constructor|]. apply Forall_cons_iff in Hok. destruct Hok as [Hit Hok].
  cbn [flat_map]. apply Forall_app. split.
  2:{ apply IH; [exact Hok|intros i Hi; apply Hpre; right; exact Hi|intros i Hi; apply Hlen; right; exact Hi]. }
  destruct it as [[[q l] more] h]. destruct (Hpre _ (or_introl eq_refl)) as (c & w & Eq & Hc).
  pose proof (Hlen _ (or_introl eq_refl)) as Hq. cbn in Eq, Hq. destruct Hit as (H1 & H2 & _). cbn. constructor.
  - split; [rewrite Eq; discriminate|]. rewrite Eq. apply Forall_app. split; assumption.
  - apply Forall_map. eapply Forall_impl; [|exact H2]. intros x Hx. split.
    + rewrite Hq. destruct p; [lia|]. discriminate.
    + apply Forall_app. split; [|exact Hx]. apply Forall_forall. intros a Ha. apply repeat_spec in Ha. subst a.
      split; [intros [X|X]; discriminate|discriminate].
Qed.

Section Walk.
Variables (rec : bytes -> bytes -> res bytes) (o : bopts) (s e : bytes).
Hypothesis He : ending e.
Notation len := (length s).
Notation reach := (reach rec o s).
Notation rdy := (rdy e).

(* the first line of a list, up to its end *)
Lemma bullet_run c w l y pre b P : In c (B "*+-") -> Forall blank w ->
  (w = [] -> c <> "*"%char /\ exists c' r, l = c' :: r /\ c' <> c) -> visible l ->
  s = (pre ++ (c :: w) ++ l) ++ y -> y <> [] -> rdy b ->
  (forall b', linner e BUlStart (Some (c :: w), b_plen b) (length pre) ([], []) (out b) b' ->
     reach (length (pre ++ (c :: w) ++ l)) b' P) ->
  reach (length pre) b P.
Proof.
  intros Hc Hw Hw0 (Hl & cl & r & El & Hcb) Es Hy Hr K. apply on_line_nl in Hl. rewrite El in Hl. apply Forall_cons_iff in Hl. destruct Hl as [Hcn Hrn].
  assert (E0 : s = pre ++ c :: w ++ cl :: r ++ y) by (rewrite Es, El, <- !app_assoc; reflexivity).
  pose proof Hr as (R1 & R2 & R3 & R4 & R5).
  assert (Hn : is_nl c = false) by (destruct Hc as [<-|[<-|[<-|[]]]]; reflexivity).
  assert (Hcs : ~ blank c) by (destruct Hc as [<-|[<-|[<-|[]]]]; intros [X|X]; discriminate).
  set (b1 := set_start2 (length pre) (set_d c (set_state BListOrRule (set_start (length pre) b)))).
  eapply plain_step with (b' := b1); [exact E0|exact Hn| |].
  { rewrite (@start_step rec o s pre c _ b E0); auto; [|apply ne_app; discriminate]. destruct Hc as [<-|[<-|[<-|[]]]]; reflexivity. }
  (* blanks *)
  assert (Bl : forall w' p', Forall blank w' -> s = p' ++ w' ++ cl :: r ++ y ->
    reach (length (p' ++ w')) b1 P -> reach (length p') b1 P).
  { induction w' as [|a w' IH]; intros p' Hw' Ep H; [rewrite app_nil_r in H; exact H|].
    apply Forall_cons_iff in Hw'. destruct Hw' as [Ha Hw'].
    eapply plain_step with (b' := b1); [exact Ep|apply blank_nl, Ha| |].
    - unfold bstep. change (b_state b1) with BListOrRule. cbn match. change (b_d b1) with c.
      assert (X : (a == c) = false) by (apply eqb_neq; intros ->; contradiction).
      rewrite X, (blank_sp Ha). cbn [negb]. rewrite !andb_false_r. reflexivity.
    - apply IH; [exact Hw'|rewrite Ep, <- app_assoc; reflexivity|]. rewrite <- app_assoc. exact H. }
  apply (Bl w (pre ++ [c]) Hw); [rewrite E0, <- app_assoc; reflexivity|].
  set (p1 := (pre ++ [c]) ++ w).
  assert (E1 : s = p1 ++ cl :: r ++ y) by (unfold p1; rewrite E0, <- !app_assoc; reflexivity).
  set (b2 := set_prefix (Some (c :: w)) (set_state BUlStart b1)).
  eapply plain_step with (b' := b2); [exact E1|exact Hcn| |].
  { assert (X : dup s (length pre) (length p1) = c :: w).
    { apply (@dup_mid s pre (c :: w) (cl :: r ++ y)); [exact E0|]. unfold p1. rewrite !app_length. cbn [length]. lia. }
    unfold bstep. change (b_state b1) with BListOrRule. cbn match. change (b_start b1) with (length pre). change (b_d b1) with c.
    rewrite (nblank_sp rec s Hcb), X. cbn [negb].
    destruct w as [|w0 w].
    - destruct (Hw0 eq_refl) as (Hs & c' & r' & E' & Hne). rewrite E' in El. injection El as -> ->.
      assert (Y : (cl == c) = false) by (apply eqb_neq, Hne). assert (Z : (c == "*"%char) = false) by (apply eqb_neq, Hs).
      rewrite Y, Z, !andb_false_r. reflexivity.
    - assert (Y : Nat.eqb (length p1) (length pre + 1) = false).
      { apply Nat.eqb_neq. unfold p1. rewrite !app_length. cbn [length]. lia. }
      rewrite Y. reflexivity. }
  eapply scan with (l := r) (y := y); [exact Hrn|rewrite E1, <- app_assoc; reflexivity|exact Hy|reflexivity|].
  replace ((p1 ++ [cl]) ++ r) with (pre ++ (c :: w) ++ l) by (unfold p1; rewrite El, <- !app_assoc; reflexivity).
  apply K. unfold linner, b2, b1. repeat split; auto.
Qed.

Lemma number_run p l y pre b P : numbered p -> visible l -> s = (pre ++ p ++ l) ++ y -> y <> [] -> rdy b ->
  (forall b', linner e BOlStart (b_prefix b, length p) (length pre) ([], []) (out b) b' -> reach (length (pre ++ p ++ l)) b' P) ->
  reach (length pre) b P.
Proof.
  intros (ds & w & -> & Hdn & Hds & Hw) (Hl & cl & r & El & Hcb) Es Hy Hr K. apply on_line_nl in Hl. rewrite El in Hl. apply Forall_cons_iff in Hl. destruct Hl as [Hcn Hrn].
  destruct ds as [|d ds]; [contradiction|]. apply Forall_cons_iff in Hds. destruct Hds as [Hd Hds].
  assert (E0 : s = pre ++ d :: ds ++ "."%char :: w ++ cl :: r ++ y) by (rewrite Es, El, <- !app_assoc; reflexivity).
  pose proof Hr as (R1 & R2 & R3 & R4 & R5).
  assert (Dig : forall a, is_digit a = true -> is_nl a = false /\ (a == "."%char) = false /\ (a == "#"%char) = false /\
    (a == "*"%char) = false /\ (a == "+"%char) = false /\ (a == "-"%char) = false).
  { intros a Ha. pose proof (digit_range Ha) as Hr'. unfold is_nl. rewrite orb_false_iff.
    repeat split; apply eqb_neq; intros ->; vm_compute in Hr'; lia. }
  destruct (Dig d Hd) as (D1 & D2 & D3 & D4 & D5 & D6).
  set (b1 := set_start2 (length pre) (set_state BOl (set_start (length pre) b))).
  eapply plain_step with (b' := b1); [exact E0|exact D1| |].
  { rewrite (@start_step rec o s pre d _ b E0); auto; [|apply ne_app; discriminate]. rewrite D2, D3, D4, D5, D6, Hd. reflexivity. }
  assert (Bl : forall w' p', Forall (fun c => is_digit c = true) w' -> s = p' ++ w' ++ "."%char :: w ++ cl :: r ++ y ->
    reach (length (p' ++ w')) b1 P -> reach (length p') b1 P).
  { induction w' as [|a w' IH]; intros p' Hw' Ep H; [rewrite app_nil_r in H; exact H|].
    apply Forall_cons_iff in Hw'. destruct Hw' as [Ha Hw'].
    eapply plain_step with (b' := b1); [exact Ep|apply (Dig a Ha)| |].
    - unfold bstep. change (b_state b1) with BOl. cbn match. rewrite Ha. reflexivity.
    - apply IH; [exact Hw'|rewrite Ep, <- app_assoc; reflexivity|]. rewrite <- app_assoc. exact H. }
  apply (Bl ds (pre ++ [d]) Hds); [rewrite E0, <- app_assoc; reflexivity|].
  assert (E1 : s = ((pre ++ [d]) ++ ds) ++ "."%char :: w ++ cl :: r ++ y) by (rewrite E0, <- !app_assoc; reflexivity).
  eapply plain_step with (b' := set_state BOlSpace b1); [exact E1|reflexivity|reflexivity|].
  eapply skip_blanks with (w := w) (y := cl :: r ++ y); [rewrite E1, <- !app_assoc; reflexivity|exact Hw|reflexivity|].
  set (p1 := (((pre ++ [d]) ++ ds) ++ ["."%char]) ++ w).
  assert (E2 : s = p1 ++ cl :: r ++ y) by (unfold p1; rewrite E1, <- !app_assoc; reflexivity).
  set (b2 := set_plen (length ((d :: ds) ++ "."%char :: w)) (set_state BOlStart (set_state BOlSpace b1))).
  eapply plain_step with (b' := b2); [exact E2|exact Hcn| |].
  { unfold bstep. change (b_state (set_state BOlSpace b1)) with BOlSpace. cbn match.
    rewrite (nblank_sp rec s Hcb), Hcn, (not_last2 rec E2) by (apply ne_app, Hy). cbn [orb negb].
    change (b_start (set_state BOlSpace b1)) with (length pre).
    replace (length p1 - length pre) with (length ((d :: ds) ++ "."%char :: w)); [reflexivity|].
    unfold p1. rewrite !app_length. cbn [length]. lia. }
  eapply scan with (l := r) (y := y); [exact Hrn|rewrite E2, <- app_assoc; reflexivity|exact Hy|reflexivity|].
  replace ((p1 ++ [cl]) ++ r) with (pre ++ ((d :: ds) ++ "."%char :: w) ++ l) by (unfold p1; rewrite El, <- !app_assoc; reflexivity).
  apply K. unfold linner, b2, b1. repeat split; auto.
Qed.

Lemma iinline_ok it : item_ok e it -> iinline e it.
Proof.
  destruct it as [[[p l] more] h]. intros (H1 & H2 & H3). unfold iinline. apply (markup_inline He); [constructor; assumption|exact H3].
Qed.
Lemma blanks_on w : Forall blank w -> on_line w.
Proof. apply Forall_impl. intros a [-> | ->]; (split; [intros [X|X]; discriminate|discriminate]). Qed.

Lemma ul_block c it its g x pre b P : bullet c (item_prefix it) (item_text it) -> visible (item_text it) ->
  Forall (item_ok e) (it :: its) -> Forall (fun i => item_prefix i = item_prefix it) its ->
  closed e g x -> follows e x -> s = pre ++ (ended e (flat_map item_src (it :: its)) ++ g) ++ x -> rdy b ->
  (forall b', rdy b' -> out b' = emit o e (out b) (EList (B "ul") (map item_html (it :: its))) ->
     reach (length (pre ++ (ended e (flat_map item_src (it :: its)) ++ g))) b' P) ->
  reach (length pre) b P.
Proof.
  intros (Hc & w & Ep & Hw & Hw0) Hv Hok Hsame Hcl Hx Es Hr K.
  assert (Hcs : c <> SP) by (destruct Hc as [<-|[<-|[<-|[]]]]; discriminate).
  set (p := item_prefix it) in *. set (plen := length p).
  assert (Hpl : plen > 0) by (unfold plen; rewrite Ep; cbn; lia).
  assert (Hall : forall i, In i (it :: its) -> item_prefix i = p).
  { intros i [<-|Hi]; [reflexivity|]. rewrite Forall_forall in Hsame. apply Hsame, Hi. }
  set (item := fun t => starts_with t p).
  destruct (@items_acts e item plen Hpl) with (its := its) (it := it) (hs := @nil bytes) (cur := @nil bytes) (h0 := @nil ascii) as (k & K1 & K2).
  { intro y. unfold item. rewrite Ep. destruct plen; [lia|]. apply starts_with_sp, Hcs. }
  { intros i Hi. rewrite (Hall i Hi). split; [reflexivity|]. split; [apply starts_with_app|].
    apply iinline_ok. rewrite Forall_forall in Hok. apply Hok, Hi. }
  { left. split; reflexivity. }
  cbn [app] in K2.
  assert (Htx : Forall text_line (flat_map item_src (it :: its))).
  { apply (@item_src_text plen _ e Hok); [|intros i Hi; rewrite (Hall i Hi); reflexivity|exact Hpl].
    intros i Hi. rewrite (Hall i Hi), Ep. exists c, w. split; [reflexivity|].
    constructor; [|apply blanks_on, Hw]. destruct Hc as [<-|[<-|[<-|[]]]]; (split; [intros [X|X]; discriminate|discriminate]). }
  destruct it as [[[p' l] more] h]. cbn in p. subst p. set (p := p') in *. cbn [item_text] in *.
  set (ts := map (fun y => repeat SP (length p) ++ y) more ++ flat_map item_src its).
  assert (Ets : flat_map item_src ((p, l, more, h) :: its) = (p ++ l) :: ts) by reflexivity.
  rewrite Ets in *. apply Forall_cons_iff in Htx. destruct Htx as [[Ht0 _] Htx].
  assert (E1 : s = (pre ++ p ++ l) ++ e ++ ended e ts ++ g ++ x).
  { rewrite Es. cbn [ended flat_map]. unfold ended. rewrite <- !app_assoc. reflexivity. }
  rewrite Ep in E1. eapply (@bullet_run c w l); [exact Hc|exact Hw|exact Hw0|exact Hv|exact E1|apply e_y; exact He|exact Hr|].
  rewrite <- Ep in *. intros b1 Hb1.
  eapply (@list_block rec o s e He item plen (B "ul") BUlStart BUlEnd (Some p, b_plen b)) with (g := g) (x := x) (k := k) (ts := ts);
    [reflexivity| | |exact Ht0|exact Htx|exact K1|exact K2|exact E1|exact Hcl|exact Hx|exact Hb1|exact K].
  - intros cur c0 b2 S1 S2. unfold bstep. rewrite S1. injection S2 as S2 _. rewrite S2. reflexivity.
  - intros cur c0 b2 S1. unfold bstep. rewrite S1. reflexivity.
Qed.

Lemma ol_block it its g x pre b P : visible (item_text it) -> Forall (item_ok e) (it :: its) ->
  Forall (fun i => numbered (item_prefix i) /\ length (item_prefix i) = length (item_prefix it) /\ item_text i <> []) (it :: its) ->
  closed e g x -> follows e x -> s = pre ++ (ended e (flat_map item_src (it :: its)) ++ g) ++ x -> rdy b ->
  (forall b', rdy b' -> out b' = emit o e (out b) (EList (B "ol") (map item_html (it :: its))) ->
     reach (length (pre ++ (ended e (flat_map item_src (it :: its)) ++ g))) b' P) ->
  reach (length pre) b P.
Proof.
  intros Hv Hok Hnum Hcl Hx Es Hr K.
  set (plen := length (item_prefix it)) in *. rewrite Forall_forall in Hnum.
  assert (Hne : forall i, In i (it :: its) -> exists c w, item_prefix i = c :: w /\ on_line (c :: w)).
  { intros i Hi. destruct (Hnum i Hi) as ((ds & w & E & Hd & Hds & Hw) & _). rewrite E. destruct ds as [|d ds]; [contradiction|].
    exists d, (ds ++ "."%char :: w). split; [reflexivity|].
    change (on_line ((d :: ds) ++ "."%char :: w)). apply Forall_app. split.
    - eapply Forall_impl; [|exact Hds]. intros a Ha. pose proof (digit_range Ha) as R. split.
      + intros [X|X]; subst a; vm_compute in R; lia.
      + intros ->. vm_compute in R. lia.
    - constructor; [split; [intros [X|X]; discriminate|discriminate]|apply blanks_on, Hw]. }
  assert (Hpl : plen > 0).
  { destruct (Hne it (or_introl eq_refl)) as (c & w & E & _). unfold plen. rewrite E. cbn. lia. }
  set (item := fun t => is_ordered_item t plen).
  destruct (@items_acts e item plen Hpl) with (its := its) (it := it) (hs := @nil bytes) (cur := @nil bytes) (h0 := @nil ascii) as (k & K1 & K2).
  { intro y. unfold item. destruct plen; [lia|]. apply ordered_sp. }
  { intros i Hi. destruct (Hnum i Hi) as (N1 & N2 & N3). split; [exact N2|]. split.
    - unfold item. rewrite <- N2. apply ordered_item; assumption.
    - apply iinline_ok. rewrite Forall_forall in Hok. apply Hok, Hi. }
  { left. split; reflexivity. }
  cbn [app] in K2.
  assert (Htx : Forall text_line (flat_map item_src (it :: its))).
  { apply (@item_src_text plen _ e Hok); [exact Hne|intros i Hi; apply Hnum, Hi|exact Hpl]. }
  destruct (Hnum it (or_introl eq_refl)) as (N1 & _ & _).
  destruct it as [[[p l] more] h]. cbn [item_text item_prefix] in *.
  set (ts := map (fun y => repeat SP (length p) ++ y) more ++ flat_map item_src its).
  assert (Ets : flat_map item_src ((p, l, more, h) :: its) = (p ++ l) :: ts) by reflexivity.
  rewrite Ets in *. apply Forall_cons_iff in Htx. destruct Htx as [[Ht0 _] Htx].
  assert (E1 : s = (pre ++ p ++ l) ++ e ++ ended e ts ++ g ++ x).
  { rewrite Es. cbn [ended flat_map]. unfold ended. rewrite <- !app_assoc. reflexivity. }
  eapply (@number_run p l); [exact N1|exact Hv|exact E1|apply e_y; exact He|exact Hr|]. intros b1 Hb1.
  eapply (@list_block rec o s e He item plen (B "ol") BOlStart BOlEnd (b_prefix b, plen)) with (g := g) (x := x) (k := k) (ts := ts);
    [reflexivity| | |exact Ht0|exact Htx|exact K1|exact K2|exact E1|exact Hcl|exact Hx|exact Hb1|exact K].
  - intros cur c0 b2 S1 S2. unfold bstep. rewrite S1. injection S2 as _ S2. rewrite S2. reflexivity.
  - intros cur c0 b2 S1. unfold bstep. rewrite S1. reflexivity.
Qed.

(* the same without the line ending of the last line *)
Lemma chopped_item p l t ts : p <> [] -> long (visible (removelast l)) 2 (t :: ts) -> t = p ++ l -> Forall text_line (t :: ts) -> visible l ->
  exists l' ts' c, joined e (t :: ts) = joined e ((p ++ l') :: ts') ++ [c] /\ visible l' /\ Forall text_line ts' /\ is_nl c = false /\
    t :: ts = removelast ((p ++ l') :: ts') ++ [last ((p ++ l') :: ts') [] ++ [c]] /\
    (exists c0 r r', l = c0 :: r /\ l' = c0 :: r').
Proof.
  intros Hp Hlong Et Hall Hv. assert (Hpl : forall x c1 r1, x = c1 :: r1 -> removelast (p ++ x) = p ++ removelast x).
  { intros x c1 r1 ->. apply removelast_app. discriminate. }
  destruct (@chopped rec e t ts _ 2 ltac:(lia) Hlong) as (t' & ts' & u & c & E1 & E2 & E3 & E4 & E5 & E6 & E7).
  { intros _. destruct Hv as (_ & c1 & r1 & X & _). rewrite Et, (Hpl _ _ _ X). destruct p; [contradiction|discriminate]. }
  assert (Hu : text_line (u ++ [c])).
  { rewrite E7 in Hall. apply Forall_app in Hall. destruct Hall as [_ Hall]. apply Forall_inv in Hall. exact Hall. }
  assert (Huc : on_line u /\ is_nl c = false).
  { destruct Hu as [_ Hu']. apply Forall_app in Hu'. destruct Hu' as [A1 A2]. split; [exact A1|]. apply on_line_nl in A2. inversion A2. assumption. }
  destruct Huc as [Hou Hcn].
  assert (Hts : Forall text_line ts').
  { apply E5; [exact Hu| |apply Forall_cons_iff in Hall; apply Hall]. intro H. split; [destruct u; [cbn in H; lia|discriminate]|exact Hou]. }
  destruct Hv as (Hol & c0 & r & El & Hb).
  destruct E6 as [(-> & -> & F1 & F2)| F1].
  - assert (F3 : t' = p ++ removelast l) by (rewrite F1, Et, (Hpl _ _ _ El); reflexivity).
    exists (removelast l), [], c. rewrite <- F3. rewrite <- E2 in E7. split; [exact E1|]. split; [exact F2|]. split; [exact Hts|]. split; [exact Hcn|]. split; [exact E7|].
    destruct F2 as (_ & c1 & r1 & X & _). exists c0, r, r1. split; [exact El|]. rewrite X. f_equal.
    rewrite El in X. destruct r; [discriminate X|]. cbn in X. injection X as <- _. reflexivity.
  - subst t'. rewrite Et in E1, E7 |- *. rewrite Et in E2. exists l, ts', c. split; [exact E1|]. split; [split; [exact Hol|eauto]|]. split; [exact Hts|]. split; [exact Hcn|].
    split; [rewrite E2; exact E7|]. exists c0, r, r. auto.
Qed.

Lemma long_ul c it its pre b (P : bvars -> Prop) : (Exists newline_byte s \/ e = [LF]) -> bullet c (item_prefix it) (item_text it) -> visible (item_text it) ->
  Forall (item_ok e) (it :: its) -> Forall (fun i => item_prefix i = item_prefix it) its ->
  long (visible (removelast (item_text it))) 2 (flat_map item_src (it :: its)) ->
  s = pre ++ joined e (flat_map item_src (it :: its)) -> rdy b ->
  (forall b', rdy b' -> out b' = emit o e (out b) (EList (B "ul") (map item_html (it :: its))) -> P b') ->
  reach (length pre) b P.
Proof.
  intros Hone (Hc & w & Ep & Hw & Hw0) Hv Hok Hsame Hlong Es Hr K.
  assert (Hcs : c <> SP) by (destruct Hc as [<-|[<-|[<-|[]]]]; discriminate).
  set (p := item_prefix it) in *. set (plen := length p).
  assert (Hpl : plen > 0) by (unfold plen; rewrite Ep; cbn; lia).
  assert (Hall : forall i, In i (it :: its) -> item_prefix i = p).
  { intros i [<-|Hi]; [reflexivity|]. rewrite Forall_forall in Hsame. apply Hsame, Hi. }
  set (item := fun t => starts_with t p).
  destruct (@items_acts e item plen Hpl) with (its := its) (it := it) (hs := @nil bytes) (cur := @nil bytes) (h0 := @nil ascii) as (k & K1 & K2).
  { intro y. unfold item. rewrite Ep. destruct plen; [lia|]. apply starts_with_sp, Hcs. }
  { intros i Hi. rewrite (Hall i Hi). split; [reflexivity|]. split; [apply starts_with_app|].
    apply iinline_ok. rewrite Forall_forall in Hok. apply Hok, Hi. }
  { left. split; reflexivity. }
  cbn [app] in K2.
  assert (Htx : Forall text_line (flat_map item_src (it :: its))).
  { apply (@item_src_text plen _ e Hok); [|intros i Hi; rewrite (Hall i Hi); reflexivity|exact Hpl].
    intros i Hi. rewrite (Hall i Hi), Ep. exists c, w. split; [reflexivity|].
    constructor; [|apply blanks_on, Hw]. destruct Hc as [<-|[<-|[<-|[]]]]; (split; [intros [X|X]; discriminate|discriminate]). }
  destruct it as [[[p' l] more] h]. cbn in p. subst p. set (p := p') in *. cbn [item_text] in *.
  set (ts := map (fun y => repeat SP (length p) ++ y) more ++ flat_map item_src its).
  assert (Ets : flat_map item_src ((p, l, more, h) :: its) = (p ++ l) :: ts) by reflexivity.
  rewrite Ets in *.
  assert (Hpn : p <> []) by (rewrite Ep; discriminate).
  destruct (@chopped_item p l (p ++ l) ts Hpn Hlong eq_refl Htx Hv) as (l' & ts' & z & E1 & Hv' & Hts & Hz & E2 & (c0 & r & r' & El & El')).
  rewrite E2 in K1. assert (Es' : s = pre ++ joined e ((p ++ l') :: ts') ++ [z]) by (rewrite Es, E1; reflexivity).
  destruct (@joined_first e (p ++ l') ts') as (y & Ey).
  assert (E3 : s = (pre ++ p ++ l') ++ y ++ [z]) by (rewrite Es', Ey, <- !app_assoc; reflexivity).
  rewrite Ep in E3. eapply (@bullet_run c w l'); [exact Hc|exact Hw| |exact Hv'|exact E3|apply ne_app; discriminate|exact Hr|].
  { intro X. destruct (Hw0 X) as (X1 & c1 & r1 & X2 & X3). split; [exact X1|]. exists c0, r'. split; [exact El'|]. congruence. }
  rewrite <- Ep in *. intros b1 Hb1.
  eapply (@list_last rec o s e He item plen (B "ul") BUlStart BUlEnd (Some p, b_plen b)) with (k := k) (ts := ts') (c := z);
    [reflexivity| | |exact Hone|apply ne_app; rewrite El'; discriminate|exact Hts|exact Hz|exact K1|exact K2|exact Es'|exact Hb1|exact K].
  - intros cur c1 b2 S1 S2. unfold bstep. rewrite S1. injection S2 as S2 _. rewrite S2. reflexivity.
  - intros cur c1 b2 S1. unfold bstep. rewrite S1. reflexivity.
Qed.

Lemma long_ol it its pre b (P : bvars -> Prop) : (Exists newline_byte s \/ e = [LF]) -> visible (item_text it) -> Forall (item_ok e) (it :: its) ->
  Forall (fun i => numbered (item_prefix i) /\ length (item_prefix i) = length (item_prefix it) /\ item_text i <> []) (it :: its) ->
  long (visible (removelast (item_text it))) 2 (flat_map item_src (it :: its)) ->
  s = pre ++ joined e (flat_map item_src (it :: its)) -> rdy b ->
  (forall b', rdy b' -> out b' = emit o e (out b) (EList (B "ol") (map item_html (it :: its))) -> P b') ->
  reach (length pre) b P.
Proof.
  intros Hone Hv Hok Hnum Hlong Es Hr K.
  set (plen := length (item_prefix it)) in *. rewrite Forall_forall in Hnum.
  assert (Hne : forall i, In i (it :: its) -> exists c w, item_prefix i = c :: w /\ on_line (c :: w)).
  { intros i Hi. destruct (Hnum i Hi) as ((ds & w & E & Hd & Hds & Hw) & _). rewrite E. destruct ds as [|d ds]; [contradiction|].
    exists d, (ds ++ "."%char :: w). split; [reflexivity|].
    change (on_line ((d :: ds) ++ "."%char :: w)). apply Forall_app. split.
    - eapply Forall_impl; [|exact Hds]. intros a Ha. pose proof (digit_range Ha) as R. split.
      + intros [X|X]; subst a; vm_compute in R; lia.
      + intros ->. vm_compute in R. lia.
    - constructor; [split; [intros [X|X]; discriminate|discriminate]|apply blanks_on, Hw]. }
  assert (Hpl : plen > 0).
  { destruct (Hne it (or_introl eq_refl)) as (c & w & E & _). unfold plen. rewrite E. cbn. lia. }
  set (item := fun t => is_ordered_item t plen).
  destruct (@items_acts e item plen Hpl) with (its := its) (it := it) (hs := @nil bytes) (cur := @nil bytes) (h0 := @nil ascii) as (k & K1 & K2).
  { intro y. unfold item. destruct plen; [lia|]. apply ordered_sp. }
  { intros i Hi. destruct (Hnum i Hi) as (N1 & N2 & N3). split; [exact N2|]. split.
    - unfold item. rewrite <- N2. apply ordered_item; assumption.
    - apply iinline_ok. rewrite Forall_forall in Hok. apply Hok, Hi. }
  { left. split; reflexivity. }
  cbn [app] in K2.
  assert (Htx : Forall text_line (flat_map item_src (it :: its))).
  { apply (@item_src_text plen _ e Hok); [exact Hne|intros i Hi; apply Hnum, Hi|exact Hpl]. }
  destruct (Hnum it (or_introl eq_refl)) as (N1 & _ & _).
  destruct it as [[[p l] more] h]. cbn [item_text item_prefix] in *.
  set (ts := map (fun y => repeat SP (length p) ++ y) more ++ flat_map item_src its).
  assert (Ets : flat_map item_src ((p, l, more, h) :: its) = (p ++ l) :: ts) by reflexivity.
  rewrite Ets in *.
  assert (Hpn : p <> []) by (intros ->; cbn in plen; lia).
  destruct (@chopped_item p l (p ++ l) ts Hpn Hlong eq_refl Htx Hv) as (l' & ts' & z & E1 & Hv' & Hts & Hz & E2 & (c0 & r & r' & El & El')).
  rewrite E2 in K1. assert (Es' : s = pre ++ joined e ((p ++ l') :: ts') ++ [z]) by (rewrite Es, E1; reflexivity).
  destruct (@joined_first e (p ++ l') ts') as (y & Ey).
  assert (E3 : s = (pre ++ p ++ l') ++ y ++ [z]) by (rewrite Es', Ey, <- !app_assoc; reflexivity).
  eapply (@number_run p l'); [exact N1|exact Hv'|exact E3|apply ne_app; discriminate|exact Hr|]. intros b1 Hb1.
  eapply (@list_last rec o s e He item plen (B "ol") BOlStart BOlEnd (b_prefix b, plen)) with (k := k) (ts := ts') (c := z);
    [reflexivity| | |exact Hone|apply ne_app; rewrite El'; discriminate|exact Hts|exact Hz|exact K1|exact K2|exact Es'|exact Hb1|exact K].
  - intros cur c1 b2 S1 S2. unfold bstep. rewrite S1. injection S2 as _ S2. rewrite S2. reflexivity.
  - intros cur c1 b2 S1. unfold bstep. rewrite S1. reflexivity.
Qed.

(* ---------- whole documents ---------- *)
Lemma ended_follows l ls y : (exists c r, l = c :: r /\ is_nl c = false) -> follows e (ended e (l :: ls) ++ y).
Proof. intros (c & r & -> & Hc). right. right. exists c. eexists. split; [reflexivity|exact Hc]. Qed.
Lemma text_first l : text_line l -> exists c r, l = c :: r /\ is_nl c = false.
Proof. intros [Hn Hl]. apply on_line_nl in Hl. destruct l as [|c r]; [contradiction|]. apply Forall_cons_iff in Hl. exists c, r. tauto. Qed.

Lemma joined_follows l ls : (exists c r, l = c :: r /\ is_nl c = false) -> follows e (joined e (l :: ls)).
Proof. intros (c & r & -> & Hc). rewrite joined_cons. right. right. exists c. eexists. split; [reflexivity|exact Hc]. Qed.
Lemma doc_follows exc x l : doc e exc x l -> follows e x.
Proof.
  intro H. destruct H.
  - left. reflexivity.
  - apply follows_e.
  - destruct ls as [|l0 ls]; [contradiction|]. rewrite app_assoc, <- app_assoc. apply ended_follows.
    apply Forall_cons_iff in H0. apply text_first, H0.
  - destruct n; [lia|]. right. right. eexists. eexists. split; reflexivity.
  - right. right. eexists. eexists. split; reflexivity.
  - right. right. exists c. eexists. split; [reflexivity|]. destruct H as [<-|[<-|[<-|[]]]]; reflexivity.
  - apply Forall_cons_iff in H. apply ended_follows, text_first, H.
  - cbn [map]. apply ended_follows. destruct p as [|a p]; [contradiction|]. apply Forall_cons_iff in H0. destruct H0 as [Ha _].
    exists a. eexists. split; [reflexivity|apply blank_nl, Ha].
  - cbn [map]. apply ended_follows. eexists. eexists. split; reflexivity.
  - destruct it as [[[p l1] more] h]. destruct H as (Hc & w & Ep & _). cbn in Ep. cbn [flat_map item_src item_lines app].
    apply ended_follows. rewrite Ep. eexists. eexists. split; [reflexivity|]. destruct Hc as [<-|[<-|[<-|[]]]]; reflexivity.
  - destruct it as [[[p l1] more] h]. apply Forall_cons_iff in H1. destruct H1 as [((ds & w & Ep & Hd & Hds & _) & _) _].
    cbn in Ep. cbn [flat_map item_src item_lines app]. apply ended_follows. rewrite Ep. destruct ds as [|d ds]; [contradiction|].
    apply Forall_cons_iff in Hds. destruct Hds as [Hdd _]. eexists. eexists. split; [reflexivity|].
    pose proof (digit_range Hdd) as R. unfold is_nl. rewrite orb_false_iff. split; apply eqb_neq; intros ->; vm_compute in R; lia.
  - destruct ls as [|l0 ls]; [contradiction|]. apply joined_follows. apply Forall_cons_iff in H0. apply text_first, H0.
  - destruct n; [lia|]. right. right. eexists. eexists. split; reflexivity.
  - right. right. exists c. eexists. split; [reflexivity|]. destruct H as [<-|[<-|[<-|[]]]]; reflexivity.
  - apply Forall_cons_iff in H. apply joined_follows, text_first, H.
  - cbn [map]. apply joined_follows. destruct p as [|a p]; [contradiction|]. apply Forall_cons_iff in H0. destruct H0 as [Ha _].
    exists a. eexists. split; [reflexivity|apply blank_nl, Ha].
  - cbn [map]. apply joined_follows. eexists. eexists. split; reflexivity.
  - destruct it as [[[p l1] more] h]. destruct H as (Hc & w & Ep & _). cbn in Ep. cbn [flat_map item_src item_lines app].
    apply joined_follows. rewrite Ep. eexists. eexists. split; [reflexivity|]. destruct Hc as [<-|[<-|[<-|[]]]]; reflexivity.
  - destruct it as [[[p l1] more] h]. apply Forall_cons_iff in H1. destruct H1 as [((ds & w & Ep & Hd & Hds & _) & _) _].
    cbn in Ep. cbn [flat_map item_src item_lines app]. apply joined_follows. rewrite Ep. destruct ds as [|d ds]; [contradiction|].
    apply Forall_cons_iff in Hds. destruct Hds as [Hdd _]. eexists. eexists. split; [reflexivity|].
    pose proof (digit_range Hdd) as R. unfold is_nl. rewrite orb_false_iff. split; apply eqb_neq; intros ->; vm_compute in R; lia.
Qed.

Lemma cnt_quote w : forall ls, cnt (ended e ls) + length ls <= cnt (ended e (map (app (">"%char :: w)) ls)).
Proof.
  unfold ended. induction ls as [|l ls IH]; [cbn; lia|]. cbn [map flat_map length]. rewrite !cnt_app.
  change (cnt (">"%char :: w)) with (S (cnt w)). lia.
Qed.

Lemma cnt_quote_joined w : forall ls, ls <> [] -> cnt (ended e ls) < cnt (joined e (map (app (">"%char :: w)) ls)).
Proof.
  intros ls H. pose proof (cnt_quote w ls) as X. rewrite (ended_joined e (ls := map (app (">"%char :: w)) ls)) in X by (destruct ls; [contradiction|discriminate]).
  rewrite cnt_app in X. assert (Z : cnt e = 0) by (destruct He as [<-|[<-|[<-|[<-|[]]]]]; reflexivity).
  destruct ls; [contradiction|]. cbn [length] in X. lia.
Qed.
Lemma ended_newline l ls : Exists newline_byte (ended e (l :: ls)).
Proof.
  unfold ended. cbn [flat_map]. apply Exists_app. left. apply Exists_app. right.
  destruct He as [<-|[<-|[<-|[<-|[]]]]]; apply Exists_cons; left; first [left; reflexivity|right; reflexivity].
Qed.

Hypothesis Hone : Exists newline_byte s \/ e = [LF].
Hypothesis Hrec : forall t els, cnt t < cnt s -> Exists newline_byte t -> doc e false t els -> rec t e = Ok (doc_html e els).

Lemma walk exc x els : doc e exc x els -> forall pre b, exc = o_exc o -> s = pre ++ x -> rdy b ->
  reach (length pre) b (fun b' => out b' = fold_left (emit o e) els (out b) /\ rdy b').
Proof.
  induction 1 as [exc|exc x l Hd IH|exc ls h g x l H1 H2 H3 H4 H5 Hd IH|exc n w t d sl h x l H1 H2 H3 H4 H5 H6 H7 H8 Hd IH
    |n x l Hd IH|exc c n x l H1 Hd IH|exc r ls g x l H1 H2 Hd IH|exc p l0 ls g x l H1 H2 H3 H4 H5 Hd IH
    |exc w l0 ls inn g x l H1 H2 H3 Hd0 IH0 H4 Hd IH|exc c it its g x l H1 H2 H3 H4 H5 Hd IH|exc it its g x l H1 H2 H3 H4 Hd IH
    |exc ls h H1 H2 H3 H4 H5|exc n w t d sl h H1 H2 H3 H4 H5 H6 H7 H8 H9|exc c n H1|exc r ls H1 H2|exc p l0 ls H1 H2 H3 H4 H5
    |exc w l0 ls inn H1 H2 H3 Hd0 IH0 H4|exc c it its H1 H2 H3 H4 H5|exc it its H1 H2 H3 H4];
    intros pre b Hexc Es Hr.
  - rewrite app_nil_r in Es. rewrite <- Es. apply reach_end. split; [reflexivity|exact Hr].
  - pose proof Hr as (R1 & R2 & R3 & R4).
    eapply (nl_go He); [exact Es|exact (doc_follows Hd)|exact R4|]. intros cur' c' N1 N2 N3 N4.
    exists (nlst e (length pre) b). split.
    { unfold bstep. change (b_state (nlst e (length pre) b)) with (b_state b). rewrite R1, N1, N2. reflexivity. }
    change (out b) with (out (nlst e (length pre) b)). apply IH; [exact Hexc|rewrite Es, app_assoc; reflexivity|].
    split; [exact R1|]. split; [exact R2|]. split; [exact R3|]. apply nlst_binv.
  - eapply (para_block He); [exact H1|exact H2|rewrite <- Hexc; exact H3|apply (markup_inline He); [apply text_on, H2|exact H4]
      |apply fix_lines; assumption|exact H5|exact (doc_follows Hd)|rewrite Es, <- !app_assoc; reflexivity|exact Hr|].
    intros b' Hb' Ho. cbn [fold_left]. rewrite <- Ho. apply IH; [exact Hexc|rewrite Es, <- !app_assoc; reflexivity|exact Hb'].
  - eapply (head_block He) with (n := n) (w := w) (t := t) (d := d) (sl := sl); [exact H1|exact H2|exact H3|exact H4|apply (markup_inline1 (proj1 H4) H5)
      |apply dec_unique; assumption|apply anchor_slug, H8|apply escape_htmlentities|exact (doc_follows Hd)|rewrite Es, <- !app_assoc; reflexivity|exact Hr|].
    intros b' Hb' Ho. cbn [fold_left]. rewrite <- Ho. apply IH; [exact Hexc|rewrite Es, <- !app_assoc; reflexivity|exact Hb'].
  - eapply (cut_block He) with (n := n); [symmetry; exact Hexc|exact (doc_follows Hd)|rewrite Es, <- !app_assoc; reflexivity|exact Hr|].
    intros b' Hb' Ho. cbn [fold_left]. rewrite <- Ho. apply IH; [exact Hexc|rewrite Es, <- !app_assoc; reflexivity|exact Hb'].
  - eapply (rule_block He) with (c := c) (n := n); [exact H1|exact (doc_follows Hd)|rewrite Es, <- !app_assoc; reflexivity|exact Hr|].
    intros b' Hb' Ho. cbn [fold_left]. rewrite <- Ho. apply IH; [exact Hexc|rewrite Es, <- !app_assoc; reflexivity|exact Hb'].
  - eapply (html_block He); [exact H1|exact H2|exact (doc_follows Hd)|rewrite Es, <- !app_assoc; reflexivity|exact Hr|].
    intros b' Hb' Ho. cbn [fold_left]. rewrite <- Ho. apply IH; [exact Hexc|rewrite Es, <- !app_assoc; reflexivity|exact Hb'].
  - eapply (code_block He) with (p := p); [exact H1|exact H2|exact H3|exact H4| |exact H5|exact (doc_follows Hd)|rewrite Es, <- !app_assoc; reflexivity|exact Hr|].
    { rewrite join_joined. f_equal. apply map_ext. exact escape_htmlentities. }
    intros b' Hb' Ho. cbn [fold_left]. rewrite <- Ho. apply IH; [exact Hexc|rewrite Es, <- !app_assoc; reflexivity|exact Hb'].
  - eapply (quote_block He) with (w := w); [exact H1|exact H2|exact H3| |exact H4|exact (doc_follows Hd)|rewrite Es, <- !app_assoc; reflexivity|exact Hr|].
    { apply Hrec; [|apply ended_newline|exact Hd0]. rewrite Es, !cnt_app. pose proof (cnt_quote w (l0 :: ls)) as X. cbn [length] in X.
      change (map (fun y => ">"%char :: w ++ y) (l0 :: ls)) with (map (app (">"%char :: w)) (l0 :: ls)). lia. }
    intros b' Hb' Ho. cbn [fold_left]. rewrite <- Ho. apply IH; [exact Hexc|rewrite Es, <- !app_assoc; reflexivity|exact Hb'].
  - eapply ul_block; [exact H1|exact H2|exact H3|exact H4|exact H5|exact (doc_follows Hd)|rewrite Es, <- !app_assoc; reflexivity|exact Hr|].
    intros b' Hb' Ho. cbn [fold_left]. rewrite <- Ho. apply IH; [exact Hexc|rewrite Es, <- !app_assoc; reflexivity|exact Hb'].
  - eapply ol_block; [exact H1|exact H2|exact H3|exact H4|exact (doc_follows Hd)|rewrite Es, <- !app_assoc; reflexivity|exact Hr|].
    intros b' Hb' Ho. cbn [fold_left]. rewrite <- Ho. apply IH; [exact Hexc|rewrite Es, <- !app_assoc; reflexivity|exact Hb'].
  - subst exc. eapply (@long_para _ _ _ _ He ls h); [exact Hone|exact H1|exact H2|exact H3|exact H5|apply (markup_inline He); [apply text_on, H2|exact H4]
      |apply fix_lines; assumption|exact Es|exact Hr|]. intros b' Hb' Ho. split; assumption.
  - eapply (@long_head _ _ _ _ n w t d sl h); [exact Hone|exact H1|exact H2|exact H3|exact H4|exact H9|apply (markup_inline1 (proj1 H4) H5)
      |apply dec_unique; assumption|apply anchor_slug, H8|apply escape_htmlentities|exact Es|exact Hr|]. intros b' Hb' Ho. split; assumption.
  - eapply (@long_rule _ _ _ _ c n); [exact Hone|exact H1|exact Es|exact Hr|]. intros b' Hb' Ho. split; assumption.
  - eapply (@long_html _ _ _ _ He r ls); [exact Hone|exact H1|exact H2|exact Es|exact Hr|]. intros b' Hb' Ho. split; assumption.
  - eapply (@long_code _ _ _ _ He p l0 ls); [exact Hone|exact H1|exact H2|exact H3|exact H4|exact H5| |exact Es|exact Hr|].
    { rewrite join_joined. f_equal. apply map_ext. exact escape_htmlentities. }
    intros b' Hb' Ho. split; assumption.
  - eapply (@long_quote _ _ _ _ He w l0 ls); [exact Hone|exact H1|exact H2|exact H3|exact H4| |exact Es|exact Hr|].
    { apply Hrec; [|apply ended_newline|exact Hd0]. rewrite Es, cnt_app. pose proof (@cnt_quote_joined w (l0 :: ls) ltac:(discriminate)) as X.
      change (map (fun y => ">"%char :: w ++ y) (l0 :: ls)) with (map (app (">"%char :: w)) (l0 :: ls)). lia. }
    intros b' Hb' Ho. split; assumption.
  - eapply long_ul; [exact Hone|exact H1|exact H2|exact H3|exact H4|exact H5|exact Es|exact Hr|]. intros b' Hb' Ho. split; assumption.
  - eapply long_ol; [exact Hone|exact H1|exact H2|exact H3|exact H4|exact Es|exact Hr|]. intros b' Hb' Ho. split; assumption.
Qed.
End Walk.

(* the values collected on the way *)
Definition opt_first {A} (a b : option A) : option A := match a with Some _ => a | None => b end.
Definition heads (l : list element) : list header :=
  flat_map (fun x => match x with EHead n _ _ sl h => [Header n (Some sl) (Some h)] | _ => [] end) l.
Definition excerpt_end (l : list element) (e : bytes) (done : nat) (cut : nat) : nat :=
  snd (fold_left (fun k x => (fst k + length (element_html e x), match x with ECut => fst k | _ => snd k end)) l (done, cut)).
Lemma emit_all o e : forall l rv exc fh desc hd,
  fold_left (emit o e) l (rv, exc, fh, desc, hd) =
  (rv ++ doc_html e l,
   excerpt_end l e (length rv) exc,
   if o_fh o then opt_first fh (first_header l) else fh,
   if o_desc o then opt_first desc (description l) else desc,
   if o_hdrs o then hd ++ heads l else hd).
Proof.
  induction l as [|x l IH]; intros rv exc fh desc hd.
  - cbn. rewrite !app_nil_r. destruct (o_fh o), (o_desc o), (o_hdrs o), fh, desc; reflexivity.
  - cbn [fold_left]. unfold emit at 2. rewrite IH. unfold excerpt_end. cbn [fold_left fst snd].
    unfold doc_html. cbn [flat_map]. rewrite app_length, <- app_assoc.
    destruct x, (o_fh o), (o_desc o), (o_hdrs o), fh, desc; cbn [opt_first first_header description heads flat_map app element_html length];
      rewrite ?Nat.add_0_r; rewrite <- ?app_assoc; reflexivity.
Qed.
Lemma excerpt_end_spec e : forall l done cut, 
  (cut = None \/ exists c, cut = Some c) ->
  excerpt_end l e (length done) (match cut with None => 0 | Some c => length c end) =
  match excerpt e done cut l with None => 0 | Some c => length c end.
Proof.
  induction l as [|x l IH]; intros done cut _; [reflexivity|]. unfold excerpt_end in *. cbn [fold_left fst snd excerpt].
  rewrite <- app_length. rewrite <- IH.
  - destruct x; reflexivity.
  - destruct x; eauto; destruct cut; eauto.
Qed.

Theorem doc_content : forall fuel o e x els le, lines_end x e -> doc e (o_exc o) x els -> le = None \/ le = Some e -> cnt x < fuel ->
  exists b, content_parse fuel o x le = Ok b /\
    b_rv b = doc_html e els /\
    b_exc b = match excerpt e [] None els with None => 0 | Some c => length c end /\
    b_fh b = (if o_fh o then first_header els else None) /\
    b_desc b = (if o_desc o then description els else None) /\
    b_hdrs b = (if o_hdrs o then heads els else []) /\
    b_le b = e.
Proof.
  induction fuel as [|f IH]; intros o e x els le Hxe Hd Hle Hf; [lia|]. pose proof Hxe as [He Hone].
  set (rec := fun t e => do b <- content_parse f quote_opts t (Some e) ; Ok (b_rv b)).
  destruct (@walk rec o x e He) with (exc := o_exc o) (x := x) (els := els) (pre := @nil ascii) (b := bv0 le) as (b & Hb & Ho & Hr).
  - exact Hone.
  - intros t els' Hc Hn Hd'. unfold rec. destruct (IH quote_opts e t els' (Some e) (conj He (or_introl Hn)) Hd' (or_intror eq_refl) ltac:(lia)) as (b & -> & Eb & _). cbn [rbind]. rewrite Eb.
    reflexivity.
  - exact Hd.
  - reflexivity.
  - reflexivity.
  - repeat split. destruct Hle as [-> | ->]; [right; split; [reflexivity|right; reflexivity]|left; split; reflexivity].
  - split; [intros i c Hi; cbn in Hi; lia|]. split; [apply le_n|constructor].
  - apply leads_content in Hb. exists b. split; [exact Hb|].
    change (out (bv0 le)) with ((@nil ascii, 0, @None bytes, @None bytes, @nil header)) in Ho.
    rewrite emit_all in Ho. unfold out in Ho. cbn [app opt_first length] in Ho. injection Ho as H1 H2 H3 H4 H5.
    split; [exact H1|]. split; [rewrite H2; exact (@excerpt_end_spec e els [] None (or_introl eq_refl))|].
    split; [exact H3|]. split; [exact H4|]. split; [exact H5|].
    destruct Hr as (_ & _ & _ & [(_ & Hr)|(Hr0 & [Hr|Hr])] & _); [exact Hr|exact Hr|].
    destruct Hone as [Hx| ->]; [|exact Hr]. apply (proj1 (content_line Hb)) in Hx. congruence.
Qed.
