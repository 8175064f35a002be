(* Escaping, anchors, plain paragraphs, and the examples of P_Content.v. *)
From Verif Require Import Base Utils UtilsProofs Toctree Content InlineSpec InlineProofs InlineFwd BlockSpec BlockProofs BlockTerm BlockSafe
  BlockOut BlockLoop DocSpec BlockFwd BlockDoc ContentSpec.
#[local] Arguments B : simpl never.

Definition all_opts : bopts := BO true true true true.

Lemma entities_cases c : In c (DQ :: B "&<>'/") \/ entity c = None.
Proof.
  unfold entity. destruct (c == "&"%char) eqn:E1; [apply eqb_true in E1; subst; left; vm_compute; auto|].
  destruct (c == "<"%char) eqn:E2; [apply eqb_true in E2; subst; left; vm_compute; auto|].
  destruct (c == ">"%char) eqn:E3; [apply eqb_true in E3; subst; left; vm_compute; auto|].
  destruct (c == DQ) eqn:E4; [apply eqb_true in E4; subst; left; vm_compute; auto|].
  destruct (c == SQ) eqn:E5; [apply eqb_true in E5; subst; left; vm_compute; auto 10|].
  destruct (c == "/"%char) eqn:E6; [apply eqb_true in E6; subst; left; vm_compute; auto 10|]. right. reflexivity.
Qed.
Lemma prefix_amp t c : c <> "&"%char -> find (fun p => prefix (fst p) (c :: t)) entities = None.
Proof. intro H. assert (E : ("&"%char == c) = false) by (apply eqb_neq; congruence). unfold entities, B. cbn. rewrite E. reflexivity. Qed.
Lemma entity_none c : entity c = None -> ~ In c (DQ :: B "&<>'/").
Proof. intros H X. destruct X as [<-|[<-|[<-|[<-|[<-|[<-|[]]]]]]]; discriminate. Qed.
Lemma decode_esc c t : decode 0 (esc1 c ++ t) = c :: decode 0 t.
Proof.
  destruct (entities_cases c) as [H|H].
  - destruct H as [<-|[<-|[<-|[<-|[<-|[<-|[]]]]]]]; cbv -[decode]; cbn [decode]; reflexivity.
  - unfold esc1. rewrite H. cbn [app decode]. rewrite prefix_amp; [reflexivity|]. intros ->. discriminate.
Qed.
Lemma esc1_amp c x y : esc1 c = x ++ "&"%char :: y -> x = [] /\ exists d, In (esc1 c, d) entities.
Proof.
  destruct (entities_cases c) as [H|H].
  - intro E. destruct x as [|a x].
    + split; [reflexivity|]. clear E. destruct H as [<-|[<-|[<-|[<-|[<-|[<-|[]]]]]]]; eexists; vm_compute; auto 10.
    + exfalso. assert (X : In "&"%char (tl (esc1 c))) by (rewrite E; apply in_elt). clear E.
      destruct H as [<-|[<-|[<-|[<-|[<-|[<-|[]]]]]]]; vm_compute in X; intuition discriminate.
  - unfold esc1. rewrite H. intro E. destruct x as [|a x]; [|destruct x; discriminate]. injection E as -> _. discriminate.
Qed.
Lemma htmlentities_all s :
  (forall c, In c (htmlentities s) -> ~ In c (DQ :: B "<>'/")) /\
  (forall x y, htmlentities s = x ++ "&"%char :: y -> exists ent c z, In (ent, c) entities /\ "&"%char :: y = ent ++ z) /\
  decode 0 (htmlentities s) = s.
Proof.
  split; [|split].
  - intros c H. apply in_flat_map in H. destruct H as (d & _ & H). destruct (entities_cases d) as [X|X].
    + destruct X as [<-|[<-|[<-|[<-|[<-|[<-|[]]]]]]]; vm_compute in H |- *; intuition congruence.
    + unfold esc1 in H. rewrite X in H. destruct H as [<-|[]]. apply entity_none in X. intro Y. apply X.
      destruct Y as [<-|Y]; [left; reflexivity|]. right. right. exact Y.
  - induction s as [|c s IH]; intros x y E; [destruct x; discriminate|]. cbn [htmlentities flat_map] in E.
    apply app_eq_app in E. destruct E as (l & [[E1 E2]|[E1 E2]]).
    + destruct l as [|a l].
      * cbn in E2. apply (IH [] y). symmetry. exact E2.
      * cbn [app] in E2. injection E2 as <- ->. destruct (esc1_amp E1) as [_ (d & Hd)]. destruct (esc1_amp E1) as [-> _]. cbn [app] in E1.
        exists (esc1 c), d, (flat_map esc1 s). split; [exact Hd|]. rewrite E1. reflexivity.
    + apply (IH l y E2).
  - induction s as [|c s IH]; [reflexivity|]. cbn [htmlentities flat_map]. rewrite decode_esc. f_equal. exact IH.
Qed.

Lemma slug_char_anchor c : anchor_byte c (slug_char c).
Proof.
  unfold anchor_byte, slug_char. destruct (is_lower c) eqn:E1.
  - split; [reflexivity|]. split; [|discriminate]. intro H. exfalso. destruct c as [[] [] [] [] [] [] [] []]; discriminate.
  - destruct (is_digit c) eqn:E2.
    + split; [reflexivity|]. split; [|discriminate]. intro H. exfalso. clear E1. destruct c as [[] [] [] [] [] [] [] []]; discriminate.
    + destruct (is_upper c) eqn:E3.
      * split; [intros [X|X]; discriminate|]. split; [|discriminate]. intros _. clear E1 E2.
        destruct c as [[] [] [] [] [] [] [] []]; try discriminate E3; split; reflexivity.
      * split; [intros [X|X]; discriminate|]. split; [discriminate|]. reflexivity.
Qed.
Lemma slugify_all s : anchor s (slugify s) /\ Forall slug_byte (slugify s) /\ length (slugify s) = length s /\
  slugify (slugify s) = slugify s.
Proof.
  split; [|split; [apply slugify_bytes|split; [apply map_length|]]].
  - induction s; constructor; [apply slug_char_anchor|assumption].
  - unfold slugify. rewrite map_map. apply map_ext. intro c. destruct c as [[] [] [] [] [] [] [] []]; reflexivity.
Qed.

Lemma content_ends o s fuel : no_nul s -> one_newline_byte s -> length s < fuel -> content_parse fuel o s None <> OutOfFuel.
Proof.
  intros Hn H1 Hf. assert (Hc : cnt s < fuel) by (pose proof (count_occ_bound ascii_dec ">"%char s); unfold cnt; lia).
  destruct H1 as [H1|H1].
  - apply (@content_terminates fuel LF o s None); auto; [left; reflexivity|]. intros c Hi Hc'. apply is_nl_iff in Hc'. destruct Hc' as [-> | ->]; [reflexivity|contradiction].
  - apply (@content_terminates fuel CR o s None); auto; [right; reflexivity|]. intros c Hi Hc'. apply is_nl_iff in Hc'. destruct Hc' as [-> | ->]; [contradiction|reflexivity].
Qed.

Lemma documents o e x els fuel : lines_end x e -> doc e (o_exc o) x els -> length x < fuel ->
  exists b, content_parse fuel o x None = Ok b /\
    b_rv b = doc_html e els /\
    firstn (b_exc b) (b_rv b) = match excerpt e [] None els with None => [] | Some c => c end /\
    b_fh b = (if o_fh o then first_header els else None) /\
    b_desc b = (if o_desc o then description els else None) /\
    b_hdrs b = (if o_hdrs o then heads els else []).
Proof.
  intros He Hd Hf. assert (Hc : cnt x < fuel) by (pose proof (count_occ_bound ascii_dec ">"%char x); unfold cnt; lia).
  destruct (@doc_content fuel o e x els None He Hd (or_introl eq_refl) Hc) as (b & H1 & H2 & H3 & H4).
  exists b. split; [exact H1|]. split; [exact H2|]. split; [|tauto]. rewrite H2, H3.
  assert (X : forall l done cut, (forall c, cut = Some c -> exists r, done = c ++ r) -> forall c, excerpt e done cut l = Some c ->
    exists r, done ++ doc_html e l = c ++ r).
  { induction l as [|a l IH]; intros done cut Hcut c E.
    - cbn in E |- *. rewrite app_nil_r. apply Hcut, E.
    - cbn [excerpt] in E. unfold doc_html. cbn [flat_map]. rewrite app_assoc. eapply IH; [|exact E].
      intros d Hd'. assert (Y : d = done \/ cut = Some d) by (destruct a; auto; left; congruence).
      destruct Y as [->|Y]; [eauto|]. destruct (Hcut d Y) as [r ->]. rewrite <- app_assoc. eauto. }
  destruct (excerpt e [] None els) as [c|] eqn:Ee; [|reflexivity].
  destruct (X els [] None ltac:(discriminate) c Ee) as [r Er]. cbn [app] in Er. rewrite Er, firstn_app, Nat.sub_diag, firstn_all, app_nil_r. reflexivity.
Qed.

(* ---------- texts without markup ---------- *)
Definition plain (t : bytes) : Prop :=
  Forall plain_byte t /\ (forall x y, t <> x ++ B "--" ++ y) /\
  (forall x y, t = x ++ SP :: y -> exists c r, y = c :: r /\ ~ newline_byte c).
Lemma plain_tail c t : plain (c :: t) -> plain t.
Proof.
  intros (H1 & H2 & H3). apply Forall_cons_iff in H1. split; [apply H1|]. split.
  - intros x y E. apply (H2 (c :: x) y). rewrite E. reflexivity.
  - intros x y E. apply (H3 (c :: x) y). rewrite E. reflexivity.
Qed.
Lemma spaces_run t : exists n r, t = repeat SP n ++ r /\ starts SP r = false.
Proof.
  induction t as [|c t (n & r & E & H)]; [exists 0, []; split; reflexivity|].
  destruct (Ascii.ascii_dec c SP) as [->|Hc].
  - exists (S n), r. split; [cbn; f_equal; exact E|exact H].
  - exists 0, (c :: t). split; [reflexivity|]. cbn. apply eqb_neq, Hc.
Qed.
Lemma plain_skip n t : plain (repeat SP n ++ t) -> plain t.
Proof. induction n; [auto|]. intro H. apply IHn. exact (plain_tail H). Qed.
Lemma escape_spaces n r : escape (repeat SP n ++ r) = repeat SP n ++ escape r.
Proof. induction n; [reflexivity|]. cbn [repeat app escape flat_map]. change (escape_byte SP) with [SP]. cbn [app]. f_equal. exact IHn. Qed.
Lemma escape_plain c t : ~ In c (DQ :: B "&<>'/") -> escape (c :: t) = c :: escape t.
Proof.
  intro H. cbn. unfold escape_byte. repeat match goal with |- context [if c == ?d then _ else _] =>
    destruct (c == d) eqn:?E; [exfalso; apply H; apply eqb_true in E; subst c; vm_compute; auto 10|clear E] end. reflexivity.
Qed.
Lemma plain_means top : forall n t, length t <= n -> plain t -> meaning top t (escape t).
Proof.
  induction n as [|n IH]; intros t L Hp; [destruct t; [constructor|cbn in L; lia]|].
  destruct t as [|c t]; [constructor|]. cbn in L. pose proof (IH t ltac:(lia) (plain_tail Hp)) as Ht.
  pose proof Hp as (H1 & H2 & H3). apply Forall_cons_iff in H1. destruct H1 as [Hc H1].
  destruct (Ascii.ascii_dec c SP) as [->|Hs].
  { destruct (spaces_run t) as (k & r & E & Hr). destruct k as [|k].
    - cbn in E. subst r. rewrite escape_plain by (vm_compute; intuition discriminate). apply M_space; assumption.
    - destruct r as [|d r].
      + exfalso. destruct (H3 (repeat SP (S k)) []) as (c & r & X & _); [|discriminate].
        rewrite E, app_nil_r. clear. cbn. f_equal. induction k; [reflexivity|]. cbn. f_equal. exact IHk.
      + assert (Ed : SP :: t = repeat SP (2 + k) ++ d :: r) by (rewrite E; reflexivity).
        rewrite Ed, escape_spaces. apply M_spaces.
        * assert (Es : SP :: t = repeat SP (S k) ++ SP :: d :: r).
          { rewrite Ed. clear. change (2 + k) with (S (S k)). cbn [repeat app]. f_equal.
            induction k as [|k IHk]; [reflexivity|]. cbn [repeat app]. f_equal. exact IHk. }
          destruct (H3 _ _ Es) as (c & r' & Y & Hy). injection Y as <- _.
          intros [X|[X|[X|[]]]]; subst d; [discriminate Hr| |]; apply Hy; [left|right]; reflexivity.
        * apply IH; [apply (f_equal (@length _)) in E; rewrite app_length, repeat_length in E; cbn in *; lia|].
          apply (@plain_skip (2 + k)). rewrite <- Ed. exact Hp. }
  destruct (Ascii.ascii_dec c "-"%char) as [->|Hd].
  { rewrite escape_plain by (vm_compute; intuition discriminate). apply M_dash; [|exact Ht].
    destruct t as [|d t]; [reflexivity|]. cbn. apply eqb_neq. intros ->. apply (H2 [] t). reflexivity. }
  destruct (Ascii.ascii_dec c "!"%char) as [->|Hb].
  { rewrite escape_plain by (vm_compute; intuition discriminate). apply M_bang; [|exact Ht].
    destruct t as [|d t]; [reflexivity|]. cbn. apply eqb_neq. intros ->. apply Forall_cons_iff in H1. destruct H1 as [X _].
    apply X. vm_compute. auto 10. }
  cbn. rewrite escape_byte_esc1. apply M_plain; [|apply esc1_text|exact Ht].
  unfold special. intros [<-|[<-|X]]; [apply Hc; left; reflexivity|congruence|].
  unfold B in X. cbn in X. decompose [or] X; subst; try congruence; try contradiction; apply Hc; vm_compute; auto 10.
Qed.

Lemma in_mid (l e r x y : bytes) : l ++ e ++ r = x ++ y ->
  (exists l2, l = x ++ l2 /\ y = l2 ++ e ++ r) \/ (exists l2, x = l ++ l2 /\ e ++ r = l2 ++ y).
Proof.
  intro E. apply app_eq_app in E. destruct E as (k & [[E1 E2]|[E1 E2]]); [left; eauto|right; eauto].
Qed.
Lemma plain_byte_nl c : newline_byte c -> plain_byte c.
Proof. intros [-> | ->] X; vm_compute in X; intuition discriminate. Qed.
Lemma plain_line_plain l : plain_line l -> Forall plain_byte l /\ (forall x y, l <> x ++ B "--" ++ y) /\ (forall x, l <> x ++ [SP]).
Proof. intros (_ & H); exact H. Qed.

(* prefixing a plain line to a plain text *)
Lemma plain_cons l e t : ending e -> plain_line l -> plain t -> plain (l ++ e ++ t).
Proof.
  intros He (Ht & H1 & H2 & H3) (T1 & T2 & T3). pose proof (e_newlines He) as Hn.
  assert (Hl : Forall (fun c => ~ newline_byte c) l) by (destruct Ht as [_ Ht]; revert Ht; apply Forall_impl; intros a Ha; apply Ha).
  split; [|split].
  - apply Forall_app. split; [exact H1|]. apply Forall_app. split; [|exact T1]. eapply Forall_impl; [|exact Hn]. exact plain_byte_nl.
  - intros x y E. apply in_mid in E. destruct E as [(l2 & E1 & E2)|(l2 & E1 & E2)].
    + destruct l2 as [|a [|b l2]].
      * destruct He as [<-|[<-|[<-|[<-|[]]]]]; discriminate.
      * destruct He as [<-|[<-|[<-|[<-|[]]]]]; discriminate.
      * change (B "--") with ["-"%char; "-"%char] in E2. cbn [app] in E2. injection E2 as <- <- E2. apply (H2 x l2). exact E1.
    + change (B "--") with ["-"%char; "-"%char] in *. cbn [app] in E2.
      assert (L : length e <= length l2 \/ length l2 < length e) by lia. destruct L as [L|L].
      * apply app_eq_app in E2. destruct E2 as (k & [[F1 F2]|[F1 F2]]).
        { assert (k = []) by (destruct k; [reflexivity|exfalso; rewrite F1, app_length in L; cbn in L; lia]). subst k.
          cbn in F2. apply (T2 [] y). symmetry. exact F2. }
        { apply (T2 k y). exact F2. }
      * exfalso. assert (In "-"%char e).
        { rewrite <- (firstn_skipn (length l2) e). assert (X : firstn (length l2) (e ++ t) = l2) by (rewrite E2, firstn_app, Nat.sub_diag, firstn_all, app_nil_r; reflexivity).
          rewrite firstn_app in X. replace (length l2 - length e) with 0 in X by lia. rewrite app_nil_r in X. rewrite X.
          rewrite <- X in E2 at 1. rewrite <- (firstn_skipn (length l2) e) in E2 at 1. rewrite <- app_assoc in E2. apply app_inv_head in E2.
          apply in_or_app. right. destruct (skipn (length l2) e) as [|a k] eqn:Es; [|injection E2 as <- _; left; reflexivity].
          exfalso. apply (f_equal (@length _)) in Es. rewrite skipn_length in Es. cbn in Es. lia. }
        rewrite Forall_forall in Hn. apply Hn in H. destruct H; discriminate.
  - intros x y E. apply in_mid in E. destruct E as [(l2 & E1 & E2)|(l2 & E1 & E2)].
    + destruct l2 as [|a l2].
      * exfalso. destruct He as [<-|[<-|[<-|[<-|[]]]]]; discriminate.
      * cbn in E2. injection E2 as <- E2. destruct l2 as [|b l2]; [exfalso; apply (H3 x); exact E1|].
        exists b, (l2 ++ e ++ t). split; [exact E2|]. rewrite Forall_forall in Hl. apply Hl. rewrite E1. apply in_or_app. right. right. left. reflexivity.
    + apply app_eq_app in E2. destruct E2 as (k & [[F1 F2]|[F1 F2]]).
      * destruct k as [|a k]; [cbn in F2; apply (T3 [] y); symmetry; exact F2|]. exfalso. cbn in F2. injection F2 as <- _.
        rewrite Forall_forall in Hn. assert (X : In SP e) by (rewrite F1; apply in_or_app; right; left; reflexivity).
        apply Hn in X. destruct X; discriminate.
      * apply (T3 k y). exact F2.
Qed.
Lemma plain_one l : plain_line l -> plain l.
Proof.
  intros (Ht & H1 & H2 & H3). split; [exact H1|]. split; [exact H2|]. intros x y E. destruct y as [|c r]; [exfalso; apply (H3 x); exact E|].
  exists c, r. split; [reflexivity|]. destruct Ht as [_ Ht]. unfold on_line in Ht. rewrite Forall_forall in Ht. apply Ht. rewrite E. apply in_or_app. right. right. left. reflexivity.
Qed.
Lemma plain_joined e ls : ending e -> Forall plain_line ls -> plain (joined e ls).
Proof.
  intro He. induction ls as [|l [|l2 ls] IH]; intro H.
  - split; [constructor|]. split; [intros [|] y; discriminate|intros [|] y E; discriminate].
  - apply Forall_cons_iff in H. apply plain_one, H.
  - apply Forall_cons_iff in H. destruct H as [H1 H2]. apply plain_cons; auto.
Qed.
Lemma plain_odd t : Forall plain_byte t -> odd_tail t = false.
Proof.
  intro H. destruct (list_last_inv t) as [->|(t' & c & ->)]; [reflexivity|]. rewrite odd_tail_snoc. apply Forall_app in H. destruct H as [_ H].
  apply Forall_cons_iff in H. destruct H as [H _]. assert (E : (c == BSL) = false) by (apply eqb_neq; intros ->; apply H; left; reflexivity).
  rewrite E. reflexivity.
Qed.
Lemma plain_markup e ls : ending e -> Forall plain_line ls -> markup (joined e ls) (escape (joined e ls)).
Proof.
  intros He H. pose proof (plain_joined He H) as Hp. split; [exact (plain_means true (le_n _) Hp)|apply plain_odd, Hp].
Qed.
Lemma plain_texts ls : Forall plain_line ls -> Forall text_line ls.
Proof. apply Forall_impl. intros l (H & _). exact H. Qed.

Lemma paras_doc e exc ps : ending e -> Forall (plain_para exc) ps ->
  doc e exc (paras e ps) (map (fun ls => EPara ls (escape (joined e ls))) ps).
Proof.
  intro He. induction ps as [|ls [|ls2 ps] IH]; intro H; [constructor| |].
  - apply Forall_cons_iff in H. destruct H as [(H1 & H2 & H3) _]. cbn [paras map].
    replace (ended e ls) with (ended e ls ++ [] ++ []) by (rewrite !app_nil_r; reflexivity).
    apply D_para; [exact H1|apply plain_texts, H2|exact H3|apply (plain_markup He H2)|right; split; reflexivity|constructor].
  - apply Forall_cons_iff in H. destruct H as [(H1 & H2 & H3) H].
    change (paras e (ls :: ls2 :: ps)) with (ended e ls ++ e ++ paras e (ls2 :: ps)).
    change (map (fun ls => EPara ls (escape (joined e ls))) (ls :: ls2 :: ps)) with
      (EPara ls (escape (joined e ls)) :: map (fun ls => EPara ls (escape (joined e ls))) (ls2 :: ps)).
    apply D_para; [exact H1|apply plain_texts, H2|exact H3|apply (plain_markup He H2)|left; reflexivity|apply IH, H].
Qed.
Lemma paragraphs o e ps fuel : ending e -> Forall (plain_para (o_exc o)) ps -> length (paras e ps) < fuel ->
  exists b, content_parse fuel o (paras e ps) None = Ok b /\
    b_rv b = flat_map (fun ls => B "<p>" ++ escape (joined e ls) ++ B "</p>" ++ e) ps.
Proof.
  intros He Hp Hf. destruct ps as [|p ps]; [destruct fuel; [cbn in Hf; lia|]; eexists; split; reflexivity|].
  assert (Hx : lines_end (paras e (p :: ps)) e).
  { split; [exact He|]. left. apply Forall_cons_iff in Hp. destruct Hp as [(Hp & _) _]. destruct p as [|l p]; [contradiction|].
    destruct ps; [exact (ended_newline He l p)|]. cbn [paras]. apply Exists_app. left. exact (ended_newline He l p). }
  destruct (@documents o e _ _ fuel Hx (paras_doc He Hp) Hf) as (b & H1 & H2 & _).
  exists b. split; [exact H1|]. rewrite H2. clear. generalize (p :: ps). clear p ps. intro ps. unfold doc_html. induction ps as [|p ps IH]; [reflexivity|]. cbn [map flat_map]. rewrite IH. reflexivity.
Qed.

Lemma open_doc e exc ps : ending e -> Forall (plain_para exc) ps -> long_last exc ps ->
  doc e exc (open_paras e ps) (map (fun ls => EPara ls (escape (joined e ls))) ps).
Proof.
  intro He. induction ps as [|ls [|ls2 ps] IH]; intros H Hl; [constructor| |].
  - apply Forall_cons_iff in H. destruct H as [(H1 & H2 & H3) _]. cbn [open_paras map].
    apply D_para_end; [exact H1|apply plain_texts, H2|exact H3|apply (plain_markup He H2)|exact Hl].
  - apply Forall_cons_iff in H. destruct H as [(H1 & H2 & H3) H].
    change (open_paras e (ls :: ls2 :: ps)) with (ended e ls ++ e ++ open_paras e (ls2 :: ps)).
    change (map (fun ls => EPara ls (escape (joined e ls))) (ls :: ls2 :: ps)) with
      (EPara ls (escape (joined e ls)) :: map (fun ls => EPara ls (escape (joined e ls))) (ls2 :: ps)).
    apply D_para; [exact H1|apply plain_texts, H2|exact H3|apply (plain_markup He H2)|left; reflexivity|apply IH; [exact H|exact Hl]].
Qed.
Lemma open_paragraphs o e ps fuel : lines_end (open_paras e ps) e -> Forall (plain_para (o_exc o)) ps -> long_last (o_exc o) ps ->
  length (open_paras e ps) < fuel ->
  exists b, content_parse fuel o (open_paras e ps) None = Ok b /\
    b_rv b = flat_map (fun ls => B "<p>" ++ escape (joined e ls) ++ B "</p>" ++ e) ps.
Proof.
  intros Hx Hp Hl Hf. destruct (@documents o e _ _ fuel Hx (open_doc (proj1 Hx) Hp Hl) Hf) as (b & H1 & H2 & _).
  exists b. split; [exact H1|]. rewrite H2. clear. unfold doc_html. induction ps as [|p ps IH]; [reflexivity|]. cbn [map flat_map]. rewrite IH. reflexivity.
Qed.

(* ---------- examples ---------- *)
Definition lbb (x : bytes) : bool := match rev x with [] => true | c :: _ => is_nl c end.
Lemma lbb_ok x : line_break x -> lbb x = true.
Proof. intros [->|(x' & c & -> & H)]; [reflexivity|]. unfold lbb. rewrite rev_app_distr. cbn. apply is_nl_iff in H. exact H. Qed.
Definition nllb (s : bytes) : bool :=
  forallb (fun k => negb (lbb (firstn k s)) || negb (list_like (unquoted (skipn k s)))) (seq 0 (S (length s))).
Lemma nllb_ok s : nllb s = true -> no_list_lines s.
Proof.
  intros H x y E Hb. unfold nllb in H. rewrite forallb_forall in H. specialize (H (length x)).
  assert (L : In (length x) (seq 0 (S (length s)))) by (apply in_seq; rewrite E, app_length; lia). specialize (H L).
  rewrite E in H. rewrite firstn_app, Nat.sub_diag, firstn_all, app_nil_r, skipn_len, (lbb_ok Hb) in H. cbn in H. destruct (list_like (unquoted y)); [discriminate|reflexivity].
Qed.
Definition ntbb (s : bytes) : bool :=
  forallb (fun k => match skipn k s with c :: d :: _ => negb (c == BSL) || negb (is_nl d) | [c] => negb (c == BSL) | [] => true end) (seq 0 (S (length s))).
Lemma ntbb_ok s : ntbb s = true -> no_trailing_backslash s.
Proof.
  intros H x y E. unfold ntbb in H. rewrite forallb_forall in H. specialize (H (length x)).
  assert (L : In (length x) (seq 0 (S (length s)))) by (apply in_seq; rewrite E, app_length; lia). specialize (H L).
  rewrite E, skipn_len in H. rewrite eqb_refl in H. destruct y as [|d r]; [discriminate|]. exists d, r. split; [reflexivity|].
  cbn in H. intro X. apply is_nl_iff in X. rewrite X in H. discriminate.
Qed.
Definition ex_safe : bytes := B "# a" ++ [LF] ++ B "> b *c* [d](e)" ++ [LF] ++ B "> > f" ++ [LF; LF] ++ B "<g>" ++ [LF].
Lemma ex_lok : no_nul ex_safe /\ one_newline_byte ex_safe /\ no_trailing_backslash ex_safe /\ no_list_lines ex_safe.
Proof.
  split; [intro H; vm_compute in H; intuition discriminate|]. split; [left; intro H; vm_compute in H; intuition discriminate|].
  split; [apply ntbb_ok|apply nllb_ok]; vm_compute; reflexivity.
Qed.

Lemma no_sub (p l : bytes) : forallb (fun k => negb (prefix p (skipn k l))) (seq 0 (S (length l))) = true -> forall x y, l <> x ++ p ++ y.
Proof.
  intros H x y E. rewrite forallb_forall in H. specialize (H (length x)).
  assert (L : In (length x) (seq 0 (S (length l)))) by (apply in_seq; rewrite E, app_length; lia). specialize (H L).
  rewrite E, skipn_len in H. assert (X : forall q : bytes, prefix q (q ++ y) = true) by (induction q as [|a q IH]; [reflexivity|cbn; rewrite eqb_refl; exact IH]).
  rewrite X in H. discriminate.
Qed.
Definition plainb (l : bytes) : bool :=
  match l with [] => false | _ => true end && forallb (fun c => negb (is_nl c) && negb (c == NUL)) l &&
  forallb (fun c => negb (existsb (Ascii.eqb c) (BSL :: B "*_`["))) l &&
  forallb (fun k => negb (prefix (B "--") (skipn k l))) (seq 0 (S (length l))) && negb (match rev l with c :: _ => c == SP | [] => true end).
Lemma plainb_ok l : plainb l = true -> plain_line l.
Proof.
  unfold plainb. rewrite !andb_true_iff. intros [[[[H1 H2] H3] H4] H5]. split; [|split; [|split; [apply no_sub, H4|]]].
  - split; [destruct l; discriminate|]. rewrite forallb_forall in H2. apply Forall_forall. intros c Hc. apply H2 in Hc. apply andb_true_iff in Hc.
    destruct Hc as [A C]. split; [intro X; apply is_nl_iff in X; rewrite X in A; discriminate|intros ->; discriminate].
  - rewrite forallb_forall in H3. apply Forall_forall. intros c Hc X. apply H3 in Hc. apply negb_true_iff in Hc.
    assert (Y : existsb (Ascii.eqb c) (BSL :: B "*_`[") = true) by (apply existsb_exists; exists c; split; [exact X|apply eqb_refl]). congruence.
  - intros x E. rewrite E, rev_app_distr in H5. discriminate.
Qed.
Lemma ex_plain : Forall (plain_para true) [[B "Tom & Jerry  <3"; B "yes!"]; [B "a-b"]].
Proof.
  assert (F : forall c r, ~ In c (B "#*+-<>") -> is_digit c = false -> ~ blank c -> c <> "."%char -> para_first true (c :: r)).
  { intros c r H1 H2 H3 H4. apply PF_plain; auto. }
  assert (P : forall ls, ls <> [] -> forallb plainb ls = true -> Forall plain_line ls).
  { intros ls _ H. rewrite forallb_forall in H. apply Forall_forall. intros l Hl. apply plainb_ok, H, Hl. }
  repeat apply Forall_cons; try apply Forall_nil;
    (split; [discriminate|split; [apply P; [discriminate|vm_compute; reflexivity]|apply F; [vm_compute; intuition discriminate|reflexivity|intros [X|X]; discriminate|discriminate]]]).
Qed.

Lemma plainb_means top t : plainb t = true -> meaning top t (escape t).
Proof. intro H. apply plainb_ok, plain_one in H. exact (plain_means top (le_n _) H). Qed.
Lemma ex_means : means (B "a *b* **c** `d` [e](f)") (B "a <em>b</em> <strong>c</strong> <code>d</code> <a href=""f"">e</a>").
Proof.
  assert (P : forall top c, plainb [c] = true -> escape [c] = [c] -> meaning top [c] [c]) by (intros top c H E; rewrite <- E at 2; apply plainb_means, H).
  assert (T : forall c, ~ In c (B "&<>'/") -> c <> DQ -> text_bytes [c] [c]).
  { intros c H1 H2. apply (@TBs_cons c [c] [] []); [apply TB_plain; assumption|constructor]. }
  apply (@M_plain true "a" ["a"%char]); [vm_compute; intuition discriminate|apply TB_plain; [vm_compute; intuition discriminate|discriminate]|].
  apply M_space; [reflexivity|].
  apply (@M_em true "*" (B "b") (B "b") (B " **c** `d` [e](f)")); [left; reflexivity|discriminate|reflexivity|apply P; reflexivity|].
  apply M_space; [reflexivity|].
  apply (@M_strong true "*" (B "c") (B "c") (B " `d` [e](f)")); [left; reflexivity|reflexivity|apply P; reflexivity|].
  apply M_space; [reflexivity|].
  apply (@M_code true (B "d") (B "d") (B " [e](f)")); [discriminate|reflexivity|apply T; [vm_compute; intuition discriminate|discriminate]|].
  apply M_space; [reflexivity|].
  apply (@M_link true "e" [] (B "e") [] (B "f") [] []); [discriminate|reflexivity|apply P; reflexivity|constructor|reflexivity|constructor].
Qed.

Definition ex_doc : bytes :=
  B "## Hi" ++ [LF; LF] ++ B "p < q" ++ [LF; LF] ++ B ".." ++ [LF; LF] ++ B "* one" ++ [LF] ++ B "* two" ++ [LF] ++ B "  more" ++ [LF; LF] ++
  B "> 1. x" ++ [LF; LF] ++ B "---" ++ [LF] ++ B "    y > z" ++ [LF].
Definition ex_html : bytes :=
  B "<h2 id=""hi"">Hi</h2>" ++ [LF] ++ B "<p>p &lt; q</p>" ++ [LF] ++ B "<ul>" ++ [LF] ++ B "<li>one</li>" ++ [LF] ++ B "<li>two" ++ [LF] ++
  B "more</li>" ++ [LF] ++ B "</ul>" ++ [LF] ++ B "<blockquote><ol>" ++ [LF] ++ B "<li>x</li>" ++ [LF] ++ B "</ol>" ++ [LF] ++ B "</blockquote>" ++ [LF] ++
  B "<hr />" ++ [LF] ++ B "<pre><code>y &gt; z</code></pre>" ++ [LF].
Lemma plainb_markup t h : plainb t = true -> escape t = h -> markup t h.
Proof. intros H <-. split; [apply plainb_means, H|]. apply plain_odd. apply plainb_ok in H. apply H. Qed.
Lemma plainb_visible t : plainb t = true -> (exists c r, t = c :: r /\ ~ blank c) -> visible t.
Proof. intros H K. split; [|exact K]. apply plainb_ok in H. apply H. Qed.
Lemma plainb_text t : plainb t = true -> text_line t.
Proof. intro H. apply plainb_ok in H. apply H. Qed.
Ltac vis := apply plainb_visible; [vm_compute; reflexivity|do 2 eexists; split; [reflexivity|intros [X|X]; discriminate]].
Ltac mk := apply plainb_markup; vm_compute; reflexivity.
Lemma ex_doc_ok : exists els, doc [LF] true ex_doc els /\
  doc_html [LF] els = ex_html /\ description els = Some (B "p &lt; q") /\ first_header els = Some (B "Hi"%string).
Proof.
  eexists. split; [|split; [|split]].
  - unfold ex_doc.
    apply (@D_head [LF] true 2 [SP] (B "Hi") (B "2") (B "hi") (B "Hi")); [lia|repeat constructor|discriminate|vis|mk| |discriminate| |].
    { split; [discriminate|]. split; [repeat constructor|reflexivity]. }
    { apply (proj1 (slugify_all (B "Hi"))). }
    apply (@D_blank [LF]).
    apply (@D_para [LF] true [B "p < q"] (B "p &lt; q") [LF]); [discriminate|apply Forall_cons; [apply plainb_text; vm_compute; reflexivity|constructor]| |mk|left; reflexivity|].
    { apply (@PF_plain true "p"); [vm_compute; intuition discriminate|reflexivity|intros [X|X]; discriminate|discriminate]. }
    apply (@D_cut [LF] 1).
    apply (@D_ul [LF] true "*" (B "* ", B "one", [], B "one") [(B "* ", B "two", [B "more"], B "two" ++ [LF] ++ B "more")] [LF]);
      [| vis | | |left; reflexivity|].
    { split; [left; reflexivity|]. exists [SP]. split; [reflexivity|]. split; [repeat constructor|discriminate]. }
    { assert (On : forall l, plainb l = true -> on_line l) by (intros l H; apply plainb_text, H).
      repeat apply Forall_cons; try apply Forall_nil; (split; [apply On; vm_compute; reflexivity|split;
        [first [apply Forall_nil|apply Forall_cons; [apply On; vm_compute; reflexivity|apply Forall_nil]]|]]); [mk|].
      apply (@plain_markup [LF] [B "two"; B "more"]); [left; reflexivity|]. repeat apply Forall_cons; try apply Forall_nil; apply plainb_ok; vm_compute; reflexivity. }
    { repeat constructor. }
    apply (@D_quote [LF] true [SP] (B "1. x") [] [EList (B "ol") [B "x"]] [LF]); [repeat constructor|vis|constructor| |left; reflexivity|].
    { apply (@D_ol [LF] false (B "1. ", B "x", [], B "x") [] [] [] []); [vis| | |right; split; reflexivity|constructor].
      - apply Forall_cons; [|constructor]. split; [apply plainb_text; vm_compute; reflexivity|]. split; [constructor|mk].
      - apply Forall_cons; [|constructor]. split; [|split; [reflexivity|discriminate]].
        exists (B "1"), [SP]. split; [reflexivity|]. split; [discriminate|]. split; repeat constructor. }
    apply (@D_rule [LF] true "-" 0); [right; right; left; reflexivity|].
    apply (@D_code [LF] true (B "    ") (B "y > z") [] [] []); [discriminate|repeat constructor|vis|constructor|right; split; reflexivity|constructor].
  - vm_compute. reflexivity.
  - vm_compute. reflexivity.
  - vm_compute. reflexivity.
Qed.

(* markup that is not closed, and brackets that are no links *)
Lemma ex_malformed : means (B "a ** b [1], [c](d") (B "a ** b [1], [c](d") /\ means (B "see ![x] [1]") (B "see ![x] [1]").
Proof.
  assert (P : forall top t, plainb t = true -> escape t = t -> meaning top t t) by (intros top t H E; rewrite <- E at 2; apply plainb_means, H).
  assert (C : forall top c x y, ~ In c special -> ~ In c (B "&<>'/") -> c <> DQ -> meaning top x y -> meaning top (c :: x) (c :: y)).
  { intros top c x y H1 H2 H3 H. exact (@M_plain top c [c] x y H1 (TB_plain H2 H3) H). }
  Ltac pl C := apply C; [vm_compute; intuition discriminate|vm_compute; intuition discriminate|discriminate|].
  split.
  - pl C. apply M_space; [reflexivity|].
    apply (@M_lone2 true "*" "*" (B " b [1], [c](d")); [left; reflexivity|discriminate|reflexivity|].
    apply M_space; [reflexivity|]. pl C. apply M_space; [reflexivity|].
    apply (@M_bracket true "1" [] [] "," (B " [c](d")); [discriminate|reflexivity|constructor|vm_compute; intuition discriminate|].
    pl C. pl C. pl C. apply M_space; [reflexivity|].
    apply (@M_open true (B "c](d") (B "c](d")); [reflexivity| |].
    + apply (@LC_address "c" [] [] (B "d")); [discriminate|reflexivity|constructor|reflexivity].
    + apply P; vm_compute; reflexivity.
  - do 3 (pl C). apply M_space; [reflexivity|].
    apply (@M_image_bracket true (B "x") [SP] "[" (B "1]")); [reflexivity|repeat constructor|vm_compute; intuition discriminate|].
    pl C. pl C. apply M_space; [reflexivity|].
    apply (@M_open true (B "1]") (B "1]")); [reflexivity| |].
    + apply (@LC_between "1" [] []); [discriminate|reflexivity|constructor].
    + apply P; vm_compute; reflexivity.
Qed.
(* paragraphs that begin with a byte of markup *)
Definition ex_first : bytes := B "*a* b" ++ [LF; LF] ++ B "1984, c" ++ [LF; LF] ++ B "#d" ++ [LF; LF] ++ B "...e" ++ [LF].
Lemma ex_first_ok : doc [LF] true ex_first
  [EPara [B "*a* b"] (B "<em>a</em> b"); EPara [B "1984, c"] (B "1984, c"); EPara [B "#d"] (B "#d"); EPara [B "...e"] (B "...e")].
Proof.
  assert (T : forall l, plainb l = true -> Forall text_line [l]) by (intros l H; apply Forall_cons; [apply plainb_text, H|constructor]).
  unfold ex_first.
  apply (@D_para [LF] true [B "*a* b"] (B "<em>a</em> b") [LF]); [discriminate| | | |left; reflexivity|].
  { apply Forall_cons; [|constructor]. split; [discriminate|]. repeat (apply Forall_cons; [split; [intros [X|X]; discriminate|discriminate]|]). constructor. }
  { apply PF_star; [discriminate|intros [X|X]; discriminate]. }
  { split; [|reflexivity]. apply (@M_em true "*" (B "a") (B "a") (B " b") (B " b")); [left; reflexivity|discriminate|reflexivity| |];
      (eapply eq_rect; [apply plainb_means; reflexivity|reflexivity]). }
  apply (@D_para [LF] true [B "1984, c"] (B "1984, c") [LF]); [discriminate|apply T; reflexivity| |mk|left; reflexivity|].
  { apply (@PF_digits true (B "1984") ","); [discriminate|repeat constructor|reflexivity|discriminate]. }
  apply (@D_para [LF] true [B "#d"] (B "#d") [LF]); [discriminate|apply T; reflexivity| |mk|left; reflexivity|].
  { apply (@PF_hash true 0 "d"); [discriminate|intros [X|X]; discriminate]. }
  apply (@D_para [LF] true [B "...e"] (B "...e") [] []); [discriminate|apply T; reflexivity| |mk|right; split; reflexivity|constructor].
  apply (@PF_dots true 2 "e"); discriminate.
Qed.
(* a document whose last line is not ended *)
Definition ex_unended : bytes := B "# Ab" ++ [LF] ++ B "> * cd" ++ [LF] ++ B "> * ef".
Lemma ex_unended_ok : exists els, doc [LF] true ex_unended els /\ doc_html [LF] els =
  B "<h1 id=""ab"">Ab</h1>" ++ [LF] ++ B "<blockquote><ul>" ++ [LF] ++ B "<li>cd</li>" ++ [LF] ++ B "<li>ef</li>" ++ [LF] ++ B "</ul>" ++ [LF] ++ B "</blockquote>" ++ [LF].
Proof.
  eexists. split.
  - unfold ex_unended.
    apply (@D_head [LF] true 1 [SP] (B "Ab") (B "1") (B "ab") (B "Ab")); [lia|repeat constructor|discriminate|vis|mk| |discriminate| |].
    { split; [discriminate|]. split; [repeat constructor|reflexivity]. }
    { apply (proj1 (slugify_all (B "Ab"))). }
    assert (On : forall l, plainb l = true -> on_line l) by (intros l H; apply plainb_text, H).
    apply (@D_quote_end [LF] true [SP] (B "* cd") [B "* ef"] [EList (B "ul") [B "cd"; B "ef"]]); [repeat constructor| | | |].
    { split; [|do 2 eexists; split; [reflexivity|intros [X|X]; discriminate]].
      repeat (apply Forall_cons; [split; [intros [X|X]; discriminate|discriminate]|]). constructor. }
    { apply Forall_cons; [|constructor]. repeat (apply Forall_cons; [split; [intros [X|X]; discriminate|discriminate]|]). constructor. }
    { apply (@D_ul [LF] false "*" (B "* ", B "cd", [], B "cd") [(B "* ", B "ef", [], B "ef")] [] [] []); [|vis| | |right; split; reflexivity|constructor].
      - split; [left; reflexivity|]. exists [SP]. split; [reflexivity|]. split; [repeat constructor|discriminate].
      - repeat apply Forall_cons; try apply Forall_nil; (split; [apply On; vm_compute; reflexivity|split; [apply Forall_nil|mk]]).
      - repeat constructor. }
    vm_compute. lia.
  - vm_compute. reflexivity.
Qed.
