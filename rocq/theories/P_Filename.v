(* C46: the names of the generated files. *)
From Verif Require Import Base Filename FilenameSpec ReceiverSpec ReceiverProofs BlockSpec Content BlockOut.
#[local] Arguments B : simpl never.

Lemma have_text x : have x = nonempty (text x).
Proof. destruct x as [[|c s]|]; reflexivity. Qed.
Lemma starts_slash_spec s : starts_slash s = true <-> slash s.
Proof.
  destruct s as [|c s]; simpl; [split; [discriminate|intros [r E]; discriminate]|].
  rewrite eqb_true. split; [intros ->; eexists; reflexivity|intros [r E]; inv E; reflexivity].
Qed.
Lemma starts_slash_not s : starts_slash s = false <-> ~ slash s.
Proof. rewrite <- starts_slash_spec. destruct (starts_slash s); intuition congruence. Qed.
Lemma nonempty_spec s : nonempty s = true <-> s <> []. Proof. destruct s; simpl; intuition congruence. Qed.
Lemma nonempty_not s : nonempty s = false <-> s = []. Proof. destruct s; simpl; intuition congruence. Qed.

Lemma generate_spec dir gprefix prefix fname ext :
  (text gprefix <> [] \/ text prefix <> [] \/ text fname <> [] \/ text ext <> []) ->
  exists file, generate_filename dir gprefix prefix fname ext = Some file
    /\ names (text dir) (text gprefix) (text prefix) (text fname) (text ext) file.
Proof.
  intro Hne. unfold generate_filename. rewrite !have_text.
  remember (text dir) as d. remember (text gprefix) as g. remember (text prefix) as p.
  remember (text fname) as f. remember (text ext) as e. clear - Hne.
  assert (A : (nonempty g || nonempty p || nonempty f || nonempty e) = true).
  { rewrite !orb_true_iff, !nonempty_spec. tauto. }
  rewrite A. cbn [when]. clear A.
  match goal with |- context [match ?x with [] => None | _ :: _ => Some ?y end] => set (rv := x) end.
  assert (K : rv <> [] /\ names d g p f e rv).
  { assert (Hg : when (nonempty g) (B "/" ++ g) = path (filter nonempty [g])).
    { destruct g; [reflexivity|]. unfold path. cbn. rewrite app_nil_r. reflexivity. }
    unfold rv. clear rv. rewrite Hg.
    assert (Hp : forall l m, path (filter nonempty (g :: l) ++ m)
       = path (filter nonempty [g]) ++ path (filter nonempty l ++ m)).
    { intros l m. unfold path. destruct g; [reflexivity|]. cbn [filter nonempty flat_map app]. rewrite app_nil_r. reflexivity. }
    unfold names.
    assert (He : when (nonempty e) e = e) by (destruct e; reflexivity). rewrite He.
    assert (Hn : forall x, x <> [] -> d ++ path (filter nonempty [g]) ++ x <> []).
    { intros x Hy H. apply app_eq_nil in H. destruct H as [_ H]. apply app_eq_nil in H. destruct H as [_ H]. contradiction. }
    destruct f as [|fc f]; cbn [nonempty when andb orb].
    - (* no name *)
      rewrite ?andb_true_r. destruct p as [|pc p]; cbn [nonempty when orb andb negb].
      + destruct e as [|ec e]; cbn [nonempty andb negb when].
        * rewrite !app_nil_r. split.
          { destruct g; [destruct Hne as [H|[H|[H|H]]]; contradiction|]. unfold path. cbn. destruct d; discriminate. }
          exists []. split; [apply LP_prefix; auto|].
          rewrite (Hp [[]] []). cbn [filter nonempty app path flat_map]. rewrite !app_nil_r. reflexivity.
        * destruct (starts_slash (ec :: e)) eqn:Es; cbn [negb andb when].
          { apply starts_slash_spec in Es. split; [apply Hn; discriminate|].
            exists []. split; [apply LP_prefix; auto|]. rewrite (Hp [[]] []). cbn [filter nonempty app path flat_map].
            rewrite app_nil_r. reflexivity. }
          { apply starts_slash_not in Es. split; [apply Hn; discriminate|].
            exists [B "index"]. split; [apply LP_index; auto; discriminate|].
            rewrite (Hp [[]] [B "index"]). cbn [filter nonempty app]. unfold path at 3. cbn [flat_map].
            rewrite app_nil_r, <- !app_assoc. reflexivity. }
      + split; [apply Hn; discriminate|].
        exists []. split; [apply LP_prefix; [reflexivity|left; discriminate]|].
        rewrite (Hp [pc :: p] []). cbn [filter nonempty app]. unfold path at 3. cbn [flat_map].
        assert (X : (if nonempty e && negb (starts_slash e) then [] else [] : bytes) = [])
          by (destruct (nonempty e && negb (starts_slash e)); reflexivity).
        rewrite X. rewrite app_nil_r, <- !app_assoc. reflexivity.
    - (* a name *)
      destruct p as [|pc p]; cbn [nonempty when orb andb negb]; rewrite ?andb_false_r, ?andb_true_r; cbn [negb when andb].
      + destruct (nonempty e && beq (fc :: f) (B "index") && starts_slash e) eqn:X; cbn [negb when andb app].
        * apply andb_true_iff in X. destruct X as [X Es]. apply andb_true_iff in X. destruct X as [_ Ef].
          apply beq_eq in Ef. rewrite Ef. apply starts_slash_spec in Es.
          destruct Es as (r & ->).
          split; [apply Hn; discriminate|].
          exists []. split; [apply LP_root; [reflexivity|exists r; reflexivity|reflexivity]|].
          rewrite (Hp [[]] []). cbn [filter nonempty app path flat_map]. rewrite app_nil_r. reflexivity.
        * split; [apply Hn; discriminate|].
          exists [fc :: f]. split.
          { apply LP_name; [discriminate| |left; reflexivity]. intros (H1 & H2 & _). rewrite H1, beq_refl in X.
            destruct H2 as (r & ->). discriminate X. }
          rewrite (Hp [[]] [fc :: f]). cbn [filter nonempty app]. unfold path at 3. cbn [flat_map].
          rewrite app_nil_r, <- !app_assoc. reflexivity.
      + split; [apply Hn; discriminate|].
        destruct (starts_slash (fc :: f)) eqn:Es; cbn [negb when].
        * apply starts_slash_spec in Es. destruct Es as (r & Er). inversion Er; subst fc f. clear Er.
          exists [r]. split; [apply LP_slash; [reflexivity|discriminate]|].
          rewrite (Hp [pc :: p] [r]). cbn [filter nonempty app]. unfold path at 3. cbn [flat_map].
          rewrite app_nil_r, <- !app_assoc. reflexivity.
        * apply starts_slash_not in Es. exists [fc :: f]. split.
          { apply LP_name; [discriminate| |right; exact Es]. intros (_ & _ & H). discriminate. }
          rewrite (Hp [pc :: p] [fc :: f]). cbn [filter nonempty app]. unfold path at 3. cbn [flat_map].
          rewrite app_nil_r, <- !app_assoc. reflexivity. }
  destruct K as [K1 K2]. destruct rv as [|c rv]; [contradiction|]. exists (c :: rv). auto.
Qed.

(* C46, the name: directory, prefixes, name and extension joined as documented; no
   name at all only if every part is missing. *)
Theorem C46_name : forall dir gprefix prefix fname ext : option bytes,
  (forall file, generate_filename dir gprefix prefix fname ext = Some file ->
     names (text dir) (text gprefix) (text prefix) (text fname) (text ext) file)
  /\ (generate_filename dir gprefix prefix fname ext = None <->
      text gprefix = [] /\ text prefix = [] /\ text fname = [] /\ text ext = []).
Proof.
  intros. assert (D : (text gprefix <> [] \/ text prefix <> [] \/ text fname <> [] \/ text ext <> [])
    \/ (text gprefix = [] /\ text prefix = [] /\ text fname = [] /\ text ext = [])).
  { destruct (text gprefix); [|left; left; discriminate]. destruct (text prefix); [|left; right; left; discriminate].
    destruct (text fname); [|left; right; right; left; discriminate].
    destruct (text ext); [|left; right; right; right; discriminate]. right. auto. }
  destruct D as [D|D].
  - destruct (@generate_spec dir _ _ _ _ D) as (file & E & H). rewrite E. split; [intros f X; inv X; exact H|].
    split; [discriminate|]. intros (H1 & H2 & H3 & H4). exfalso. tauto.
  - destruct D as (H1 & H2 & H3 & H4).
    assert (E : generate_filename dir gprefix prefix fname ext = None).
    { unfold generate_filename. rewrite !have_text, H1, H2, H3, H4. reflexivity. }
    rewrite E. split; [intros f X; discriminate|]. tauto.
Qed.
Print Assumptions C46_name.

Example ex_name :
  generate_filename (Some (B "_build")) (Some (B "blog")) (Some (B "post")) (Some (B "foo")) (Some (B "/index.html"))
  = Some (B "_build/blog/post/foo/index.html").
Proof. reflexivity. Qed.
Example ex_index :
  generate_filename (Some (B "_build")) None None (Some (B "index")) (Some (B "/index.html")) = Some (B "_build/index.html").
Proof. reflexivity. Qed.
Example ex_noname :
  generate_filename (Some (B "_build")) None (Some []) None (Some (B ".html")) = Some (B "_build/index.html").
Proof. reflexivity. Qed.

(* C46, no collisions: with the settings fixed, two names give the same file only
   if they are the same name. *)
Theorem C46_distinct_partial : forall (dir gprefix prefix ext : option bytes) (f1 f2 : bytes),
  f1 <> [] -> f2 <> [] -> ~ slash f1 -> ~ slash f2 ->
  generate_filename dir gprefix prefix (Some f1) ext = generate_filename dir gprefix prefix (Some f2) ext ->
  f1 = f2.
Proof.
  intros dir gprefix prefix ext f1 f2 N1 N2 S1 S2 E.
  destruct (@generate_spec dir gprefix prefix (Some f1) ext) as (x1 & E1 & l1 & L1 & X1); [cbn [text]; tauto|].
  destruct (@generate_spec dir gprefix prefix (Some f2) ext) as (x2 & E2 & l2 & L2 & X2); [cbn [text]; tauto|].
  rewrite E1, E2 in E. injection E as E. cbn [text] in *. rewrite X1, X2 in E.
  apply app_inv_head in E. apply app_inv_tail in E.
  unfold path in E. rewrite !flat_map_app in E. apply app_inv_head in E.
  assert (L : forall f l, f <> [] -> ~ slash f -> last_part (text prefix) f (text ext) l ->
     l = [f] \/ (l = [] /\ f = B "index")).
  { intros f l Hf Hs H. inversion H; subst; auto; [|contradiction..]. exfalso. apply Hs. eexists. reflexivity. }
  apply L in L1; [|assumption..]. apply L in L2; [|assumption..].
  destruct L1 as [->|[-> ->]], L2 as [->|[-> ->]]; cbn [flat_map] in E; rewrite ?app_nil_r in E.
  - apply app_inv_head in E. exact E.
  - discriminate E.
  - discriminate E.
  - reflexivity.
Qed.
Print Assumptions C46_distinct_partial.

(* a leading slash is dropped when there is a prefix: two posts, one file *)
Theorem C46_slash_refuted : exists (dir gprefix prefix ext : option bytes) (f1 f2 : bytes),
  f1 <> [] /\ f2 <> [] /\ f1 <> f2 /\
  generate_filename dir gprefix prefix (Some f1) ext = generate_filename dir gprefix prefix (Some f2) ext.
Proof.
  exists (Some (B "_build")), None, (Some (B "post")), (Some (B ".html")), (B "a"), (B "/a").
  split; [discriminate|]. split; [discriminate|]. split; [discriminate|]. reflexivity.
Qed.
Print Assumptions C46_slash_refuted.

(* The listing of posts (no name, index_prefix) and a page called index are the
   same file under the default settings. *)
Theorem C46_index_refuted : exists dir page ext file : bytes,
  generate_filename (Some dir) None (Some []) None (Some ext) = Some file
  /\ generate_filename (Some dir) None None (Some page) (Some ext) = Some file.
Proof.
  exists (B "_build"), (B "index"), (B "/index.html"), (B "_build/index.html"). split; reflexivity.
Qed.
Print Assumptions C46_index_refuted.

(* ---------- inside the output directory ---------- *)
Lemma components_ne s : components s <> [].
Proof. unfold components. generalize (@nil ascii). induction s as [|c s IH]; intro cur; cbn [components_go]; [discriminate|].
  destruct (c =? "/")%char; [discriminate|apply IH]. Qed.
Lemma components_cur cur s : exists h t, components s = h :: t /\ components_go cur s = (cur ++ h) :: t.
Proof.
  unfold components. revert cur. induction s as [|c s IH]; intro cur; cbn [components_go].
  - exists [], []. rewrite app_nil_r. auto.
  - destruct (c =? "/")%char.
    + exists [], (components_go [] s). rewrite app_nil_r. auto.
    + destruct (IH (cur ++ [c])) as (h & t & E1 & E2). destruct (IH [c]) as (h' & t' & E1' & E2').
      rewrite E1 in E1'. inv E1'. exists (c :: h'), t'. cbn [app] in *. rewrite E2', E2, <- app_assoc. auto.
Qed.
Lemma components_cat a b c : In c (components (a ++ b)) -> In c (components a) \/ In c (components b)
  \/ exists x y, In x (components a) /\ In y (components b) /\ c = x ++ y.
Proof.
  enough (K : forall cur, In c (components_go cur (a ++ b)) -> In c (components_go cur a) \/ In c (components b)
    \/ exists x y, In x (components_go cur a) /\ In y (components b) /\ c = x ++ y) by apply K.
  induction a as [|k a IH]; intros cur; cbn [app components_go].
  - destruct (components_cur cur b) as (h & t & E1 & E2). rewrite E2. intros [<-|H].
    + right. right. exists cur, h. rewrite E1. split; [left; reflexivity|]. split; [left; reflexivity|reflexivity].
    + right. left. rewrite E1. right. exact H.
  - destruct (k =? "/")%char.
    + intros [<-|H]; [left; left; reflexivity|]. destruct (IH [] H) as [X|[X|(x & y & X & Y & Z)]]; [left; right; exact X|auto|].
      right. right. exists x, y. split; [right; exact X|auto].
    + intro H. destruct (IH _ H) as [X|[X|X]]; auto.
Qed.
Lemma real_dot a b : In (B "..") (components (a ++ b)) -> Forall real (components a) -> no_dotdot b -> False.
Proof.
  intros H Ha Hb. rewrite Forall_forall in Ha. apply components_cat in H. destruct H as [H|[H|(x & y & Hx & Hy & E)]].
  - apply Ha in H. destruct H as (_ & _ & H). contradiction.
  - contradiction.
  - apply Ha in Hx. destruct Hx as (H1 & H2 & H3).
    destruct x as [|x1 x]; [contradiction|]. destruct x as [|x2 x].
    + apply H2. inversion E. reflexivity.
    + destruct x; [|discriminate E]. apply H3. inversion E. reflexivity.
Qed.

(* parts made of real names (no "..", no empty component) and an extension without
   "..": the file is below the directory, with at least one component in between *)
Lemma names_inside dir g p f e file : names dir g p f e file ->
  (g <> [] -> Forall real (components g)) -> (p <> [] -> Forall real (components p)) ->
  (f <> [] -> Forall real (components f)) -> no_dotdot e ->
  (g <> [] \/ p <> [] \/ f <> [] \/ e <> []) ->
  exists r, file = dir ++ B "/" ++ r /\ no_dotdot r.
Proof.
  intros (last & L & ->) Hg Hp Hf He Hne.
  assert (Hl : Forall (fun x => Forall real (components x)) last).
  { inversion L; subst; constructor; auto.
    - assert (X : Forall real (components ("/"%char :: r))) by (apply Hf; discriminate).
      change ("/"%char :: r) with ([] ++ "/"%char :: r) in X. rewrite components_app in X.
      apply Forall_app in X. apply X.
    - vm_compute. constructor; [|constructor]. split; [discriminate|split; discriminate]. }
  set (parts := filter nonempty [g; p] ++ last).
  assert (Hparts : Forall (fun x => Forall real (components x)) parts).
  { apply Forall_app. split; [|exact Hl]. apply Forall_forall. intros x Hx. apply filter_In in Hx.
    destruct Hx as [[<-|[<-|[]]] Hx]; apply nonempty_spec in Hx; auto. }
  assert (Hnil : parts = [] -> slash e).
  { unfold parts. intro X. apply app_eq_nil in X. destruct X as [X ->].
    destruct g; [|discriminate X]. destruct p; [|discriminate X].
    inversion L; subst; auto. destruct Hne as [H1|[H1|[H1|H1]]]; try contradiction.
    destruct H0 as [H2|[H2|H2]]; [contradiction..|exact H2]. }
  assert (Hgen : forall l, Forall (fun x => Forall real (components x)) l -> l <> [] ->
     exists r, path l ++ e = B "/" ++ r /\ no_dotdot r).
  { induction l as [|x l IH]; intros H Hn; [contradiction|]. inversion H; subst.
    destruct l as [|y l].
    - exists (x ++ e). unfold path. cbn [flat_map]. rewrite app_nil_r, <- app_assoc. split; [reflexivity|].
      intro X. eapply real_dot; eassumption.
    - destruct IH as (r & E & Hr); [assumption|discriminate|].
      exists (x ++ B "/" ++ r). split; [unfold path in *; cbn [flat_map] in *; rewrite <- !app_assoc in *; rewrite E; reflexivity|].
      unfold no_dotdot. change (x ++ B "/" ++ r) with (x ++ "/"%char :: r). rewrite components_app.
      intro X. apply in_app_or in X. destruct X as [X|X]; [|contradiction].
      rewrite Forall_forall in H2. apply H2 in X. destruct X as (_ & _ & X). contradiction. }
  destruct parts as [|x l] eqn:Ep.
  - destruct (Hnil eq_refl) as (r & ->). exists r. split; [reflexivity|].
    unfold no_dotdot in *. change ("/"%char :: r) with ([] ++ "/"%char :: r) in He. rewrite components_app in He.
    intro X. apply He. apply in_or_app. right. exact X.
  - destruct (Hgen (x :: l) Hparts ltac:(discriminate)) as (r & E & Hr). exists r. rewrite E. auto.
Qed.

(* C46, the place: if the prefixes and the name are made of ordinary path
   components and the extension has no "..", the file is in the directory. *)
Theorem C46_inside : forall (dir gprefix prefix fname ext : option bytes) (file : bytes),
  (forall x, In x [gprefix; prefix; fname] -> text x <> [] -> Forall real (components (text x))) ->
  no_dotdot (text ext) ->
  generate_filename dir gprefix prefix fname ext = Some file ->
  (exists r, file = text dir ++ B "/" ++ r) /\ below (leads_to (text dir)) (leads_to file).
Proof.
  intros dir gprefix prefix fname ext file H He E.
  destruct (C46_name dir gprefix prefix fname ext) as [Hn Hnone]. specialize (Hn _ E).
  apply names_inside in Hn.
  - destruct Hn as (r & -> & Hr). split; [exists r; reflexivity|].
    unfold leads_to. change (text dir ++ B "/" ++ r) with (text dir ++ "/"%char :: r).
    rewrite components_app, follow_app. apply follow_down. exact Hr.
  - apply H. left. reflexivity.
  - apply H. right. left. reflexivity.
  - apply H. right. right. left. reflexivity.
  - exact He.
  - destruct (text gprefix) eqn:E1; [|left; discriminate]. destruct (text prefix) eqn:E2; [|right; left; discriminate].
    destruct (text fname) eqn:E3; [|right; right; left; discriminate].
    destruct (text ext) eqn:E4; [|right; right; right; discriminate].
    exfalso. rewrite (proj2 Hnone) in E by auto. discriminate.
Qed.
Print Assumptions C46_inside.

(* a post called ../../x leaves it *)
Theorem C46_inside_refuted : exists dir prefix fname ext file,
  generate_filename (Some dir) None (Some prefix) (Some fname) (Some ext) = Some file
  /\ ~ below (leads_to dir) (leads_to file).
Proof.
  exists (B "_build"), (B "post"), (B "../../x"), (B ".html"), (B "_build/post/../../x.html").
  split; [reflexivity|]. intros (r & E). vm_compute in E. discriminate.
Qed.
Print Assumptions C46_inside_refuted.
Example ex_inside : Forall real (components (B "2024/first-post")) /\ no_dotdot (B "/index.html").
Proof.
  vm_compute. split; [|intros [H|[H|[]]]; discriminate].
  repeat constructor; try discriminate.
Qed.

(* ---------- bm_generate_filename2: the pages of a tag ---------- *)
Lemma filename2_spec dir gprefix prefix fname prefix2 fname2 ext :
  generate_filename2 dir gprefix prefix fname prefix2 fname2 ext
  = generate_filename dir gprefix
      (Some (match filter nonempty [text prefix; text fname; text prefix2] with
             | [] => [] | x :: l => x ++ path l end)) fname2 ext.
Proof.
  unfold generate_filename2. f_equal. f_equal. rewrite !have_text.
  destruct (text prefix) as [|a x], (text fname) as [|b y], (text prefix2) as [|c z];
    unfold path; cbn [filter nonempty when andb orb flat_map app]; rewrite ?app_nil_r, <- ?app_assoc; reflexivity.
Qed.

Lemma digits_noslash n d : decimal n d -> d <> [] /\ ~ In "/"%char d.
Proof.
  intros (H1 & H2 & _). split; [exact H1|]. intro Hi. rewrite Forall_forall in H2. apply H2 in Hi. discriminate Hi.
Qed.

(* the part after the last slash decides *)
Lemma last_slash (a b x y : bytes) : ~ In "/"%char x -> ~ In "/"%char y ->
  a ++ "/"%char :: x = b ++ "/"%char :: y -> a = b /\ x = y.
Proof.
  revert b. induction a as [|c a IH]; intros b Hx Hy E; destruct b as [|d b]; cbn [app] in E.
  - inv E. auto.
  - inversion E; subst. exfalso. apply Hx. apply in_or_app. right. left. reflexivity.
  - inversion E; subst. exfalso. apply Hy. apply in_or_app. right. left. reflexivity.
  - inversion E; subst. destruct (IH b Hx Hy H1). subst. auto.
Qed.
Lemma decimal_inj n m d : decimal n d -> decimal m d -> n = m.
Proof. intros (_ & _ & <-) (_ & _ & <-). reflexivity. Qed.

(* Different pages of one tag, and pages of different tags, are different files. *)
Theorem C46_tag_pages : forall (dir gprefix tag_prefix page_prefix ext : option bytes) (t1 t2 d1 d2 : bytes) (n1 n2 : nat),
  t1 <> [] -> t2 <> [] -> decimal n1 d1 -> decimal n2 d2 ->
  generate_filename2 dir gprefix tag_prefix (Some t1) page_prefix (Some d1) ext
  = generate_filename2 dir gprefix tag_prefix (Some t2) page_prefix (Some d2) ext ->
  t1 = t2 /\ n1 = n2.
Proof.
  intros dir gprefix tp pp ext t1 t2 d1 d2 n1 n2 Ht1 Ht2 D1 D2 E.
  rewrite !filename2_spec in E. cbn [text] in E.
  destruct (digits_noslash D1) as [Hd1 Hs1]. destruct (digits_noslash D2) as [Hd2 Hs2].
  set (p := fun t => match filter nonempty [text tp; t; text pp] with [] => [] | x :: l => x ++ path l end) in *.
  assert (Hp : forall t, t <> [] -> p t <> []).
  { intros t Ht. unfold p. destruct (text tp) as [|a x], t as [|b y]; try contradiction; cbn [filter nonempty]; discriminate. }
  change (generate_filename dir gprefix (Some (p t1)) (Some d1) ext
          = generate_filename dir gprefix (Some (p t2)) (Some d2) ext) in E.
  destruct (@generate_spec dir gprefix (Some (p t1)) (Some d1) ext) as (x1 & E1 & l1 & L1 & X1); [cbn [text]; tauto|].
  destruct (@generate_spec dir gprefix (Some (p t2)) (Some d2) ext) as (x2 & E2 & l2 & L2 & X2); [cbn [text]; tauto|].
  rewrite E1, E2 in E. injection E as E. cbn [text] in *. rewrite X1, X2 in E.
  apply app_inv_head in E. apply app_inv_tail in E.
  assert (L : forall t d l, t <> [] -> d <> [] -> ~ In "/"%char d -> last_part (p t) d (text ext) l -> l = [d]).
  { intros t d l Ht Hd Hs H. specialize (Hp _ Ht). inversion H; subst; auto; try contradiction.
    exfalso. apply Hs. left. reflexivity. }
  apply L in L1; [|assumption..]. apply L in L2; [|assumption..]. subst l1 l2.
  assert (F : forall t d, t <> [] -> path (filter nonempty [text gprefix; p t] ++ [d])
     = path (filter nonempty [text gprefix]) ++ B "/" ++ p t ++ "/"%char :: d).
  { intros t d Ht. specialize (Hp _ Ht). destruct (p t) as [|c q]; [contradiction|].
    destruct (text gprefix) as [|c' g]; unfold path; cbn [filter nonempty app flat_map]; rewrite ?app_nil_r, <- ?app_assoc; reflexivity. }
  rewrite !F in E by assumption. apply app_inv_head in E. apply app_inv_head in E.
  apply last_slash in E; [|assumption..]. destruct E as [Et Ed]. subst d2. split; [|eapply decimal_inj; eassumption].
  unfold p in Et. destruct (text tp) as [|a x], t1 as [|b1 y1], t2 as [|b2 y2], (text pp) as [|c z];
    try contradiction; unfold path in Et; cbn [filter nonempty flat_map] in Et; rewrite ?app_nil_r in Et.
  - exact Et.
  - apply app_inv_tail in Et. exact Et.
  - apply app_inv_head in Et. apply app_inv_head in Et. exact Et.
  - apply app_inv_head in Et. rewrite <- !app_assoc in Et. apply app_inv_head in Et. apply app_inv_tail in Et. exact Et.
Qed.
Print Assumptions C46_tag_pages.
Example ex_tag_page : generate_filename2 (Some (B "_build")) None (Some (B "tag")) (Some (B "foo")) (Some (B "page"))
  (Some (dec 12)) (Some (B "/index.html")) = Some (B "_build/tag/foo/page/12/index.html").
Proof. reflexivity. Qed.
