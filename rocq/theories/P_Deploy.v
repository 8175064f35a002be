(* Deployment (C40). *)
From Verif Require Import Base Effects Deploy.
#[local] Arguments B : simpl never.

Lemma set_same w d s : dirs (set_dir w d s) d = s.
Proof. cbn. destruct (list_eq_dec ascii_dec d d); congruence. Qed.
Lemma set_other w d s x : x <> d -> dirs (set_dir w d s) x = dirs w x.
Proof. intro H. cbn. destruct (list_eq_dec ascii_dec x d); congruence. Qed.

(* removing a directory changes nothing else *)
Definition removals (h : list (dcall * bool)) : Prop :=
  Forall (fun x => match fst x with Exists _ | RemoveBegin _ | RemoveEnd _ => True | _ => False end) h.
Definition but (d : bytes) (w w' : site) : Prop := link w' = link w /\ forall x, x <> d -> dirs w' x = dirs w x.
Lemma always_rmdir d k (Q : list (dcall * bool) -> option nat -> site -> Prop) h w :
  (forall h' w' r, removals h' -> but d w w' -> r = None \/ r = Some 2 -> Q (h ++ h') r w') ->
  (forall h' w', removals h' -> but d w w' -> always dstep k (h ++ h') w' Q) ->
  always dstep (rmdir_recursive d k) h w Q.
Proof.
  intros HQ Hk. unfold rmdir_recursive. cbn [always]. unfold but, removals in *.
  split; [rewrite <- (app_nil_r h); apply HQ; auto|].
  intros ok w' Hs. inversion Hs; subst; clear Hs; cbn iota.
  - cbn [always]. split; [apply HQ; auto; repeat constructor|]. intros ok1 w1 Hs1. inversion Hs1; subst; clear Hs1.
    rewrite <- app_assoc. split; [apply HQ; auto; [repeat constructor|split; [reflexivity|intros x Hx; apply set_other; exact Hx]]|].
    intros ok2 w2 Hs2. rewrite <- !app_assoc. inversion Hs2; subst; clear Hs2; cbn iota.
    + apply Hk; [repeat constructor|]. split; [reflexivity|]. intros x Hx. rewrite !set_other by exact Hx. reflexivity.
    + split; apply HQ; auto; try (repeat constructor); intros x Hx; apply set_other; exact Hx.
  - apply Hk; [repeat constructor|auto].
Qed.
Lemma but_trans d e w w' w'' : but d w w' -> but e w' w'' -> link w'' = link w /\ forall x, x <> d -> x <> e -> dirs w'' x = dirs w x.
Proof. intros [H1 H2] [H3 H4]. split; [congruence|]. intros x Hd He. rewrite H4, H2 by assumption. reflexivity. Qed.
Lemma always_cleanup tmp rv (Q : list (dcall * bool) -> option nat -> site -> Prop) h w :
  (forall h' w' r, removals h' -> but tmp w w' -> r = None \/ r = Some 2 \/ r = Some rv -> Q (h ++ h') r w') ->
  always dstep (cleanup tmp rv) h w Q.
Proof.
  intro H. apply always_rmdir; [intros; apply H; tauto|]. intros h' w' H1 H2. split; apply H; auto.
Qed.

Section Deploy.
Variables (tmp dir old : bytes) (w0 : site).
Let out := match dirs w0 dir with Absent => dir | _ => dir ++ B "-" end.
Hypothesis safe : forall d, link w0 = Some d -> dirs w0 d = Complete.
Hypothesis fresh : dirs w0 out = Absent.
Hypothesis tmp_out : tmp <> out.

Definition good (h : list (dcall * bool)) (r : option nat) (w : site) : Prop :=
  (link w = None \/ exists d, published w d) /\
  (~ In (BuildEnd out, true) h -> link w = link w0 /\ forall d, published w0 d -> published w d) /\
  (r = Some 0 -> In (BuildEnd out, true) h -> published w out) /\
  (link w = None -> link w0 <> None -> In (UnlinkSym, true) h) /\
  (In (SymlinkSym out, true) h -> link w = Some out).

Lemma live_out d : link w0 = Some d -> d <> out.
Proof. intros H ->. apply safe in H. congruence. Qed.
(* before the build is complete *)
Definition before (w : site) : Prop := link w = link w0 /\ forall d, link w0 = Some d -> dirs w d = Complete.
Definition calm (h : list (dcall * bool)) : Prop := ~ In (BuildEnd out, true) h /\ ~ In (SymlinkSym out, true) h.
Lemma before_good h r w : before w -> calm h -> good h r w.
Proof.
  intros [H1 H2] [H3 H4]. unfold good, published.
  split; [destruct (link w0) as [d|] eqn:E; [right; exists d; auto|left; exact H1]|].
  split; [intros _; split; [exact H1|intros d [Hd Hc]; split; [congruence|auto]]|].
  split; [intros _ I; contradiction|]. split; [intros E N; congruence|intro I; contradiction].
Qed.
Lemma calm_removals h h' : removals h' -> calm h -> calm (h ++ h').
Proof.
  intros Hr [H1 H2]. unfold removals in Hr. rewrite Forall_forall in Hr.
  split; intro I; apply in_app_or in I; destruct I as [I|I]; try contradiction; exact (Hr _ I).
Qed.
Lemma calm_snoc h a ok : calm h -> (a <> BuildEnd out \/ ok = false) -> a <> SymlinkSym out -> calm (h ++ [(a, ok)]).
Proof.
  intros [H1 H2] Ha Hs. split; intro I; apply in_app_or in I; destruct I as [I|[I|[]]]; try contradiction; [|congruence].
  destruct Ha; congruence.
Qed.
Hypothesis tmp_live : forall d, link w0 = Some d -> d <> tmp.
Lemma before_but d w w' : before w -> but d w w' -> d = tmp \/ d = out -> before w'.
Proof.
  intros [H1 H2] [H3 H4] Hd. split; [congruence|]. intros x Hx. rewrite H4; [apply H2; exact Hx|].
  destruct Hd as [-> | ->]; [apply tmp_live|apply live_out]; exact Hx.
Qed.
Lemma cleanup_before rv h w : before w -> calm h -> always dstep (cleanup tmp rv) h w good.
Proof.
  intros Hb Hc. apply always_cleanup. intros h' w' r H1 H2 _. apply before_good; [|apply calm_removals; assumption]. eapply before_but; eauto.
Qed.
Lemma fail_before h w : before w -> calm h -> always dstep (rmdir_recursive out (cleanup tmp 1)) h w good.
Proof.
  intros Hb Hc. apply always_rmdir.
  - intros h' w' r H1 H2 _. apply before_good; [|apply calm_removals; assumption]. eapply before_but; eauto.
  - intros h' w' H1 H2. apply cleanup_before; [|apply calm_removals; assumption]. eapply before_but; eauto.
Qed.
Lemma before_set w d s : before w -> d = tmp \/ d = out -> before (set_dir w d s).
Proof.
  intros H Hd. eapply before_but; [exact H| |exact Hd]. split; [reflexivity|]. intros x Hx. apply set_other. exact Hx.
Qed.

(* after the build *)
Lemma good_snoc h r w h' : removals h' -> good h r w -> good (h ++ h') r w.
Proof.
  intros Hr (H1 & H2 & H3 & H4 & H5). unfold removals in Hr. rewrite Forall_forall in Hr.
  assert (N : forall x, In x (h ++ h') -> match fst x with BuildEnd _ | SymlinkSym _ | UnlinkSym => True | _ => False end -> In x h).
  { intros x I Hx. apply in_app_or in I. destruct I as [I|I]; [exact I|]. apply Hr in I. destruct (fst x); contradiction. }
  split; [exact H1|]. split; [intro K; apply H2; intro I; apply K, in_or_app; left; exact I|].
  split; [intros Er I; apply H3; [exact Er|apply N; [exact I|exact Logic.I]]|].
  split; [intros; apply in_or_app; left; auto|]. intro I; apply H5, N; [exact I|exact Logic.I].
Qed.
(* how far the publication got *)
Inductive reached (h : list (dcall * bool)) (w : site) : Prop :=
| Old : before w -> reached h w
| Nothing : link w = None -> In (UnlinkSym, true) h -> reached h w.
Lemma failed_good h r w : reached h w -> ~ In (SymlinkSym out, true) h -> In (BuildEnd out, true) h -> r <> Some 0 -> good h r w.
Proof.
  intros [[H1 H2]|H1 H2] Hs Hb Hr; unfold good, published.
  - split; [destruct (link w0) as [d|] eqn:E; [right; exists d; auto|left; exact H1]|].
    split; [intro K; contradiction|]. split; [intro; contradiction|]. split; [intros; congruence|intro; contradiction].
  - split; [left; exact H1|]. split; [intro K; contradiction|]. split; [intro; contradiction|]. split; [intros; exact H2|intro; contradiction].
Qed.
Lemma reached_but d h h' w w' : reached h w -> but d w w' -> d = tmp \/ d = out -> reached (h ++ h') w'.
Proof.
  intros [H|H1 H2] Hb Hd; [apply Old; eapply before_but; eassumption|]. apply Nothing; [destruct Hb as [Hb _]; congruence|apply in_or_app; left; exact H2].
Qed.
Lemma no_sym h h' : removals h' -> ~ In (SymlinkSym out, true) h -> ~ In (SymlinkSym out, true) (h ++ h').
Proof. intros Hr N I. apply in_app_or in I. destruct I as [I|I]; [contradiction|]. unfold removals in Hr. rewrite Forall_forall in Hr. exact (Hr _ I). Qed.
Lemma fail_after h w : reached h w -> ~ In (SymlinkSym out, true) h -> In (BuildEnd out, true) h ->
  always dstep (rmdir_recursive out (cleanup tmp 1)) h w good.
Proof.
  intros Hr Hs Hb. apply always_rmdir.
  - intros h' w' r H1 H2 H3. apply failed_good; [eapply reached_but; eauto|apply no_sym; assumption|apply in_or_app; left; exact Hb|].
    destruct H3 as [-> | ->]; discriminate.
  - intros h' w' H1 H2. apply always_cleanup. intros h2 w2 r H3 H4 H5. rewrite <- app_assoc.
    assert (H6 : removals (h' ++ h2)) by (apply Forall_app; auto).
    apply failed_good; [rewrite app_assoc; eapply reached_but; [eapply reached_but; [exact Hr|exact H2|right; reflexivity]|exact H4|left; reflexivity]|apply no_sym; assumption|apply in_or_app; left; exact Hb|].
    destruct H5 as [-> | [-> | ->]]; discriminate.
Qed.
Lemma done_good h r w : published w out -> In (BuildEnd out, true) h -> good h r w.
Proof.
  intros Hp Hb. unfold good. split; [right; exists out; exact Hp|]. split; [intro; contradiction|]. split; [auto|].
  destruct Hp as [Hp _]. split; [intros E; congruence|auto].
Qed.
Lemma done_but d h h' w w' r : published w out -> In (BuildEnd out, true) h -> but d w w' -> d <> out -> published w' out /\ good (h ++ h') r w'.
Proof.
  intros [H1 H2] Hb [H3 H4] Hd. assert (P : published w' out) by (split; [congruence|rewrite H4; [exact H2|congruence]]).
  split; [exact P|]. apply done_good; [exact P|apply in_or_app; left; exact Hb].
Qed.
Lemma cleanup_done h w rv : published w out -> In (BuildEnd out, true) h -> always dstep (cleanup tmp rv) h w good.
Proof. intros Hp Hb. apply always_cleanup. intros h' w' r H1 H2 _. eapply done_but; eauto. Qed.
Lemma in_snoc {T} (x y : T) l : In x (l ++ [y]) -> y <> x -> In x l.
Proof. intros I N. apply in_app_or in I. destruct I as [I|[I|[]]]; [exact I|contradiction]. Qed.
Lemma publish_good h w : before w -> calm h -> always dstep (publish tmp out old) h w good.
Proof.
  intros Hb Hc. unfold publish. cbn [always]. split; [apply before_good; assumption|].
  intros ok1 w1 S1. inversion S1; subst; clear S1.
  assert (Hb1 : before (set_dir w out Incomplete)) by (apply before_set; auto).
  assert (Hc1 : calm (h ++ [(BuildBegin out, ok1)])) by (apply calm_snoc; auto; try (left; discriminate); discriminate).
  split; [apply before_good; assumption|]. intros ok2 w2 S2. inversion S2; subst; clear S2; cbn [negb].
  2: { apply fail_before; [apply before_set; auto|]. apply calm_snoc; [exact Hc1|right; reflexivity|discriminate]. }
  set (h2 := (h ++ [(BuildBegin out, ok1)]) ++ [(BuildEnd out, true)]). set (w2 := set_dir (set_dir w out Incomplete) out Complete).
  assert (Hb2 : before w2) by (apply before_set; auto).
  assert (Ho2 : dirs w2 out = Complete) by apply set_same.
  assert (B2 : In (BuildEnd out, true) h2) by (apply in_or_app; right; left; reflexivity).
  assert (N2 : ~ In (SymlinkSym out, true) h2).
  { destruct Hc1 as [_ Hc1]. intro I. apply Hc1. eapply in_snoc; [exact I|discriminate]. }
  clearbody h2 w2.
  cbn [always]. split; [apply failed_good; [apply Old; exact Hb2|exact N2|exact B2|discriminate]|].
  intros ok3 w3 S3. assert (w3 = w2) by (inversion S3; auto). subst w3.
  set (h3 := h2 ++ [(Realpath old, ok3)]).
  assert (B3 : In (BuildEnd out, true) h3) by (apply in_or_app; left; exact B2).
  assert (N3 : ~ In (SymlinkSym out, true) h3) by (intro I; apply N2; eapply in_snoc; [exact I|discriminate]).
  assert (L : forall h4 w4, In (BuildEnd out, true) h4 -> ~ In (SymlinkSym out, true) h4 -> reached h4 w4 -> dirs w4 out = Complete ->
    always dstep (Do (SymlinkSym out) (fun ok => if negb ok then rmdir_recursive out (cleanup tmp 1)
       else if ok3 then rmdir_recursive old (cleanup tmp 0) else cleanup tmp 0)) h4 w4 good).
  { intros h4 w4 B4 N4 R4 O4. cbn [always]. split; [apply failed_good; try assumption; discriminate|].
    intros ok5 w5 S5. inversion S5; subst; clear S5; cbn [negb].
    - assert (P5 : published (Site (Some out) (dirs w4)) out) by (split; [reflexivity|exact O4]).
      assert (B5 : In (BuildEnd out, true) (h4 ++ [(SymlinkSym out, true)])) by (apply in_or_app; left; exact B4).
      destruct ok3; [|apply cleanup_done; assumption].
      assert (No : old <> out).
      { inversion S3; subst. apply live_out. destruct Hb2 as [Hb2 _]. congruence. }
      apply always_rmdir; [intros h' w' r Hr Hu _; eapply done_but; eauto|].
      intros h' w' Hr Hu. apply cleanup_done; [|apply in_or_app; left; exact B5]. destruct P5 as [P5 P6], Hu as [Hu1 Hu2]. split; [congruence|rewrite Hu2; [exact P6|congruence]].
    - apply fail_after; [|intro I; apply N4; eapply in_snoc; [exact I|discriminate]|apply in_or_app; left; exact B4].
      destruct R4 as [R4|R4 R5]; [apply Old; exact R4|apply Nothing; [exact R4|apply in_or_app; left; exact R5]]. }
  destruct ok3; [|apply L; try assumption; apply Old; exact Hb2].
  cbn [always]. split; [apply failed_good; [apply Old; exact Hb2|exact N3|exact B3|discriminate]|].
  intros ok4 w4 S4. inversion S4; subst; clear S4.
  - apply L; [apply in_or_app; left; exact B3|intro I; apply N3; eapply in_snoc; [exact I|discriminate]| |exact Ho2].
    apply Nothing; [reflexivity|apply in_or_app; right; left; reflexivity].
  - apply fail_after; [apply Old; exact Hb2|intro I; apply N3; eapply in_snoc; [exact I|discriminate]|apply in_or_app; left; exact B3].
Qed.
End Deploy.

Lemma deploy_good tmp dir old w0 :
  (forall d, link w0 = Some d -> dirs w0 d = Complete) ->
  let out := match dirs w0 dir with Absent => dir | _ => dir ++ B "-" end in
  dirs w0 out = Absent -> tmp <> dir -> tmp <> dir ++ B "-" ->
  always dstep (deploy tmp dir old) [] w0 (good dir w0).
Proof.
  intros safe out fresh Ht1 Ht2. assert (Ht : tmp <> out) by (unfold out; destruct (dirs w0 dir); assumption).
  assert (Hb0 : before w0 w0) by (split; [reflexivity|exact safe]).
  assert (Hc0 : calm dir w0 []) by (split; intros []).
  unfold deploy. cbn [always]. split; [apply before_good; assumption|].
  intros ok1 w1 S1. destruct ok1; cbn [negb].
  2: { assert (w1 = w0) by (inversion S1; reflexivity). subst w1. clear S1. assert (G : forall r, good dir w0 ([] ++ [(Mkdtemp tmp, false)]) r w0) by
         (intro r; apply before_good; try assumption; apply calm_snoc; [exact Hc0|left; discriminate|discriminate]).
       split; apply G. }
  assert (Hm : dirs w0 tmp = Absent /\ w1 = set_dir w0 tmp Incomplete) by (inversion S1; auto). destruct Hm as [Hm E1].
  clear S1. assert (live : forall d, link w0 = Some d -> d <> tmp) by (intros d Hd ->; apply safe in Hd; congruence).
  assert (Hb : before w0 w1) by (rewrite E1; apply (@before_set tmp dir); auto).
  assert (Hd : dirs w1 dir = dirs w0 dir) by (rewrite E1; apply set_other; congruence). clear E1.
  match goal with |- always _ _ ?h _ _ => assert (Hc1 : calm dir w0 h) by (apply calm_snoc; [exact Hc0|left; discriminate|discriminate]); set (h1 := h) in *; clearbody h1 end.
  split; [apply before_good; assumption|]. intros ok2 w2 S2. assert (w2 = w1) by (inversion S2; reflexivity). subst w2. clear S2.
  match goal with |- always _ _ ?h _ _ => assert (Hc2 : calm dir w0 h) by (apply calm_snoc; [exact Hc1|left; discriminate|discriminate]); set (h2 := h) in *; clearbody h2 end.
  destruct ok2; cbn [negb]; [|apply cleanup_before; assumption].
  split; [apply before_good; assumption|]. intros ok3 w3 S3. assert (w3 = w1) by (inversion S3; reflexivity). subst w3. clear S3.
  match goal with |- always _ _ ?h _ _ => assert (Hc3 : calm dir w0 h) by (apply calm_snoc; [exact Hc2|left; discriminate|discriminate]); set (h3 := h) in *; clearbody h3 end.
  destruct ok3; cbn [negb]; [|apply cleanup_before; assumption].
  split; [apply before_good; assumption|]. intros ok4 w4 S4.
  assert (E : w4 = w1 /\ (if ok4 then dir ++ B "-" else dir) = out).
  { unfold out. inversion S4; subst; rewrite Hd in *; destruct (dirs w0 dir); split; congruence. }
  destruct E as [-> E]. rewrite E. clear S4.
  match goal with |- always _ _ ?h _ _ => assert (Hc4 : calm dir w0 h) by (apply calm_snoc; [exact Hc3|left; discriminate|discriminate]); set (h4 := h) in *; clearbody h4 end.
  clear Hc1 Hc2 Hc3 h1 h2 h3.
  assert (P : forall h, calm dir w0 h -> always dstep (publish tmp out old) h w1 (good dir w0)) by (intros h Hc; apply publish_good; assumption).
  assert (M : forall h, calm dir w0 h -> always dstep (Do (Probe (B "gmake")) (fun ok => if ok then publish tmp out old else
                Do (Probe (B "make")) (fun ok => if ok then publish tmp out old else cleanup tmp 1))) h w1 (good dir w0)).
  { intros h Hc. split; [apply before_good; assumption|]. intros ok5 w5 S5. assert (w5 = w1) by (inversion S5; reflexivity). subst w5. clear S5.
    assert (Hc5 : calm dir w0 (h ++ [(Probe (B "gmake"), ok5)])) by (apply calm_snoc; [exact Hc|left; discriminate|discriminate]).
    destruct ok5; [apply P; exact Hc5|]. split; [apply before_good; assumption|]. intros ok6 w6 S6. assert (w6 = w1) by (inversion S6; reflexivity). subst w6. clear S6.
    match goal with |- always _ _ ?h _ _ => assert (Hc6 : calm dir w0 h) by (apply calm_snoc; [exact Hc5|left; discriminate|discriminate]) end.
    destruct ok6; [apply P; exact Hc6|apply cleanup_before; assumption]. }
  split; [apply before_good; assumption|]. intros ok5 w5 S5. assert (w5 = w1) by (inversion S5; reflexivity). subst w5. clear S5.
  match goal with |- always _ _ ?h _ _ => assert (Hc5 : calm dir w0 h) by (apply calm_snoc; [exact Hc4|left; discriminate|discriminate]); set (h5 := h) in *; clearbody h5 end.
  destruct ok5.
  - split; [apply before_good; assumption|]. intros ok6 w6 S6. assert (w6 = w1) by (inversion S6; reflexivity). subst w6. clear S6.
    match goal with |- always _ _ ?h _ _ => assert (Hc6 : calm dir w0 h) by (apply calm_snoc; [exact Hc5|left; discriminate|discriminate]) end.
    destruct ok6; [apply P; exact Hc6|apply cleanup_before; assumption].
  - split; [apply before_good; assumption|]. intros ok6 w6 S6. assert (w6 = w1) by (inversion S6; reflexivity). subst w6. clear S6.
    match goal with |- always _ _ ?h _ _ => assert (Hc6 : calm dir w0 h) by (apply calm_snoc; [exact Hc5|left; discriminate|discriminate]) end.
    destruct ok6; [apply M; exact Hc6|].
    split; [apply before_good; assumption|]. intros ok7 w7 S7. assert (w7 = w1) by (inversion S7; reflexivity). subst w7. clear S7.
    match goal with |- always _ _ ?h _ _ => assert (Hc7 : calm dir w0 h) by (apply calm_snoc; [exact Hc6|left; discriminate|discriminate]) end.
    destruct ok7; [apply M; exact Hc7|apply cleanup_before; assumption].
Qed.

(* The deployed build is complete at every point, if there is one; if the build does not
   succeed the site stays as it is; the value 0 with a build means that the new site is
   published; and the link is missing only after it was unlinked.
   Missing for the full property: the refutations below. [dir] is the name made of the
   commit and the time; the directory that is used must not be there yet. *)
Theorem C40_deploy_partial : forall tmp dir old w t r w',
  (forall d, link w = Some d -> dirs w d = Complete) ->
  let out := match dirs w dir with Absent => dir | _ => dir ++ B "-" end in
  dirs w out = Absent -> tmp <> dir -> tmp <> dir ++ B "-" ->
  trace (deploy tmp dir old) t r -> runs dstep w t w' ->
  (link w' = None \/ exists d, published w' d) /\
  (~ In (BuildEnd out, true) t -> link w' = link w /\ forall d, published w d -> published w' d) /\
  (r = Some 0 -> In (BuildEnd out, true) t -> published w' out) /\
  (link w' = None -> link w <> None -> In (UnlinkSym, true) t) /\
  (In (SymlinkSym out, true) t -> link w' = Some out).
Proof.
  intros tmp dir old w t r w' safe out fresh H1 H2 Ht Hr.
  exact (always_runs Ht (deploy_good old safe fresh H1 H2) Hr).
Qed.
Print Assumptions C40_deploy_partial.

(* an old site, and a commit to be deployed *)
Definition old_site : site := Site (Some (B "builds/abc-1")) (fun d => if list_eq_dec ascii_dec d (B "builds/abc-1") then Complete else Absent).
Definition good_calls : list (dcall * bool) :=
  [(Mkdtemp (B "/tmp/x"), true); (Archive, true); (ChdirTmp, true); (Exists (B "builds/def-2"), false); (Tree (B "blogcfile"), true);
   (Probe (B "blogc-make"), true); (BuildBegin (B "builds/def-2"), true); (BuildEnd (B "builds/def-2"), true);
   (Realpath (B "builds/abc-1"), true); (UnlinkSym, true)].
Ltac steps := repeat first
  [ refine (T_do _ _) | apply T_ret
  | eapply R_cons; [first [apply S_mkdtemp; reflexivity | apply S_archive | apply S_chdir | apply S_exists; discriminate | apply S_exists_not; reflexivity
      | apply S_tree | apply S_probe | apply S_build | apply S_built | apply S_realpath; [reflexivity|discriminate] | apply S_unlink; discriminate
      | apply S_symlink; reflexivity | apply S_symlink_fails | apply S_remove | apply S_removed]|] | apply R_nil ].

Example C40_ex : exists t w', trace (deploy (B "/tmp/x") (B "builds/def-2") (B "builds/abc-1")) t (Some 0) /\ runs dstep old_site t w'
  /\ published w' (B "builds/def-2") /\ dirs w' (B "builds/abc-1") = Absent /\ In (BuildEnd (B "builds/def-2"), true) t.
Proof.
  exists (good_calls ++ [(SymlinkSym (B "builds/def-2"), true); (Exists (B "builds/abc-1"), true); (RemoveBegin (B "builds/abc-1"), true);
     (RemoveEnd (B "builds/abc-1"), true); (Exists (B "/tmp/x"), true); (RemoveBegin (B "/tmp/x"), true); (RemoveEnd (B "/tmp/x"), true)]).
  eexists. split; [cbn [app good_calls]; unfold deploy; steps|]. split; [cbn [app good_calls]; steps|].
  vm_compute. intuition.
Qed.

(* Interrupted after unlink and before symlink, there is no site. *)
Theorem C40_refuted : exists tmp dir old w t w', published w old /\ dirs w dir = Absent /\ tmp <> dir /\ tmp <> dir ++ B "-"
  /\ trace (deploy tmp dir old) t None /\ runs dstep w t w' /\ link w' = None.
Proof.
  exists (B "/tmp/x"), (B "builds/def-2"), (B "builds/abc-1"), old_site, good_calls. eexists.
  split; [split; reflexivity|]. split; [reflexivity|]. split; [discriminate|]. split; [discriminate|].
  split; [unfold good_calls, deploy; repeat refine (T_do _ _); apply T_now|]. split; [unfold good_calls; steps|reflexivity].
Qed.
Print Assumptions C40_refuted.

(* Even when nothing is interrupted: if the new link cannot be made, the old one is gone
   and the build is deleted. *)
Theorem C40_failure_refuted : exists tmp dir old w t w', published w old /\ dirs w dir = Absent /\ tmp <> dir /\ tmp <> dir ++ B "-"
  /\ trace (deploy tmp dir old) t (Some 1) /\ runs dstep w t w' /\ link w' = None /\ dirs w' dir = Absent.
Proof.
  exists (B "/tmp/x"), (B "builds/def-2"), (B "builds/abc-1"), old_site.
  exists (good_calls ++ [(SymlinkSym (B "builds/def-2"), false); (Exists (B "builds/def-2"), true); (RemoveBegin (B "builds/def-2"), true);
     (RemoveEnd (B "builds/def-2"), true); (Exists (B "/tmp/x"), true); (RemoveBegin (B "/tmp/x"), true); (RemoveEnd (B "/tmp/x"), true)]).
  eexists. split; [split; reflexivity|]. split; [reflexivity|]. split; [discriminate|]. split; [discriminate|].
  split; [cbn [app good_calls]; unfold deploy; steps|]. split; [cbn [app good_calls]; steps|]. vm_compute. auto.
Qed.
Print Assumptions C40_failure_refuted.

(* The name with the dash is not checked: a third deployment of a commit in the same
   second publishes a directory and then deletes it, and reports success. *)
Theorem C40_same_second_refuted : exists tmp dir old w t w', published w old /\ tmp <> dir /\ tmp <> dir ++ B "-"
  /\ trace (deploy tmp dir old) t (Some 0) /\ runs dstep w t w' /\ link w' = Some old /\ dirs w' old = Absent.
Proof.
  exists (B "/tmp/x"), (B "builds/abc-1"), (B "builds/abc-1-").
  exists (Site (Some (B "builds/abc-1-")) (fun d => if list_eq_dec ascii_dec d (B "/tmp/x") then Absent else Complete)).
  exists [(Mkdtemp (B "/tmp/x"), true); (Archive, true); (ChdirTmp, true); (Exists (B "builds/abc-1"), true); (Tree (B "blogcfile"), true);
   (Probe (B "blogc-make"), true); (BuildBegin (B "builds/abc-1-"), true); (BuildEnd (B "builds/abc-1-"), true);
   (Realpath (B "builds/abc-1-"), true); (UnlinkSym, true); (SymlinkSym (B "builds/abc-1-"), true); (Exists (B "builds/abc-1-"), true);
   (RemoveBegin (B "builds/abc-1-"), true); (RemoveEnd (B "builds/abc-1-"), true); (Exists (B "/tmp/x"), true); (RemoveBegin (B "/tmp/x"), true); (RemoveEnd (B "/tmp/x"), true)].
  eexists. split; [split; reflexivity|]. split; [discriminate|]. split; [discriminate|].
  split; [unfold deploy; steps|]. split; [steps|]. vm_compute. auto.
Qed.
Print Assumptions C40_same_second_refuted.

(* A link that leads nowhere is never repaired: no deployment succeeds. *)
Theorem C40_dangling : forall tmp dir old w t w' rv, (exists d, link w = Some d /\ dirs w d = Absent) -> 
  trace (publish tmp dir old) t (Some rv) -> runs dstep w t w' -> (forall d, link w = Some d -> d <> dir /\ d <> tmp) -> rv <> 0 /\ link w' = link w.
Proof.
  intros tmp dir old w t w' rv (d & Hl & Ha) Ht Hr Hd. specialize (Hd d Hl). destruct Hd as [Hd Hd2].
  assert (F : forall h w1, link w1 = Some d -> always dstep (rmdir_recursive dir (cleanup tmp 1)) h w1 (fun _ r w2 => r <> Some 0 /\ link w2 = Some d)).
  { intros h w1 H1. apply always_rmdir.
    - intros h' w2 r _ [B1 _] [-> | ->]; (split; [discriminate|congruence]).
    - intros h' w2 _ [B1 _]. apply always_cleanup. intros h2 w3 r _ [B2 _] [-> | [-> | ->]]; (split; [discriminate|congruence]). }
  assert (K : always dstep (publish tmp dir old) [] w (fun _ r w2 => r <> Some 0 /\ link w2 = Some d)).
  { unfold publish. split; [split; [discriminate|exact Hl]|]. intros ok1 w1 S1. 
    assert (E1 : w1 = set_dir w dir Incomplete) by (inversion S1; reflexivity). 
    assert (L1 : link w1 = Some d) by (rewrite E1; exact Hl). assert (A1 : dirs w1 d = Absent) by (rewrite E1, set_other by exact Hd; exact Ha). clear S1 E1.
    split; [split; [discriminate|exact L1]|]. intros ok2 w2 S2.
    assert (E2 : exists s, w2 = set_dir w1 dir s) by (inversion S2; eauto). destruct E2 as (s & E2).
    assert (L2 : link w2 = Some d) by (rewrite E2; exact L1). assert (A2 : dirs w2 d = Absent) by (rewrite E2, set_other by exact Hd; exact A1). clear S2 E2.
    destruct ok2; cbn [negb]; [|apply F; exact L2]. split; [split; [discriminate|exact L2]|]. intros ok3 w3 S3.
    assert (E3 : w3 = w2 /\ ok3 = false) by (inversion S3; subst; [congruence|auto]). destruct E3 as [-> ->].
    split; [split; [discriminate|exact L2]|]. intros ok4 w4 S4.
    assert (E4 : w4 = w2 /\ ok4 = false) by (inversion S4; subst; [congruence|auto]). destruct E4 as [-> ->]. cbn [negb]. apply F. exact L2. }
  destruct (always_runs Ht K Hr) as [H1 H2]. split; [congruence|congruence].
Qed.
Print Assumptions C40_dangling.
