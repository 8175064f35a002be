(* C80: what the removal of a directory removes. *)
From Verif Require Import Base Effects RmTree RmTreeSpec.
From Verif Require Deploy P_Deploy.
#[local] Open Scope nat_scope.

Lemma path_eqb_eq p q : path_eqb p q = true <-> p = q.
Proof.
  revert q. induction p as [|a p IH]; intros [|b q]; cbn; try (split; congruence). rewrite Bool.andb_true_iff, IH.
  split; [intros [A ->]; apply beq_eq in A; congruence|]. intro E. inv E. split; [apply beq_refl|reflexivity].
Qed.
Lemma path_eqb_neq p q : path_eqb p q = false <-> p <> q.
Proof. rewrite <- path_eqb_eq. destruct (path_eqb p q); split; congruence. Qed.
Lemma name_in_eq d p n : name_in d p = Some n <-> p = d ++ [n].
Proof.
  revert p. induction d as [|a d IH]; intros p; cbn [name_in app].
  - destruct p as [|b [|c p]]; split; congruence.
  - destruct p as [|b p]; [split; congruence|]. destruct (beq a b) eqn:E.
    + apply beq_eq in E. subst b. rewrite IH. split; congruence.
    + apply beq_neq in E. split; congruence.
Qed.
Lemma at_in fs p e : p <> [] -> at_ fs p = Some e -> In (p, e) fs.
Proof.
  intros N. unfold at_. destruct p as [|a p]; [congruence|]. destruct (find _ fs) as [[q x]|] eqn:F; [|discriminate].
  apply find_some in F. destruct F as [I F]. cbn [fst snd] in *. apply path_eqb_eq in F. intro E. inv E. exact I.
Qed.
Lemma in_at fs p e : NoDup (map fst fs) -> p <> [] -> In (p, e) fs -> at_ fs p = Some e.
Proof.
  intros N Np I. unfold at_. destruct p as [|a p]; [congruence|]. induction fs as [|[q x] fs IH]; [destruct I|]. cbn [find fst].
  cbn [map fst] in N. inversion N as [|? ? N1 N2]; subst. destruct I as [I|I].
  - inv I. replace (path_eqb (a :: p) (a :: p)) with true by (symmetry; apply path_eqb_eq; reflexivity). reflexivity.
  - destruct (path_eqb q (a :: p)) eqn:E; [|apply IH; assumption]. apply path_eqb_eq in E. subst q. exfalso. apply N1.
    apply in_map_iff. exists (a :: p, e). auto.
Qed.
Lemma at_gone fs p q : at_ (gone fs p) q = if path_eqb q p then match q with [] => Some EDir | _ => None end else at_ fs q.
Proof.
  unfold at_, gone. destruct q as [|a q]; [destruct (path_eqb [] p); reflexivity|].
  induction fs as [|[x e] fs IH]; cbn [filter find fst].
  - destruct (path_eqb (a :: q) p); reflexivity.
  - destruct (path_eqb x p) eqn:E1; cbn [negb find fst].
    + apply path_eqb_eq in E1. subst x. destruct (path_eqb p (a :: q)) eqn:E2; [|exact IH].
      apply path_eqb_eq in E2. subst p. rewrite IH. replace (path_eqb (a :: q) (a :: q)) with true by (symmetry; apply path_eqb_eq; reflexivity). reflexivity.
    + destruct (path_eqb x (a :: q)) eqn:E2; [|exact IH]. apply path_eqb_eq in E2. subst x.
      destruct (path_eqb (a :: q) p); [discriminate|reflexivity].
Qed.
Lemma gone_in fs p x : In x (gone fs p) -> In x fs. Proof. unfold gone. intro H. apply filter_In in H. tauto. Qed.
Lemma gone_nodup fs p : NoDup (map fst fs) -> NoDup (map fst (gone fs p)).
Proof.
  unfold gone. induction fs as [|[q e] fs IH]; intro N; [exact N|]. cbn [map fst] in N. inversion N as [|? ? N1 N2]; subst. cbn [filter fst].
  destruct (negb _); [|apply IH; exact N2]. cbn [map fst]. constructor; [|apply IH; exact N2].
  intro I. apply N1. apply in_map_iff in I. destruct I as (x & <- & I). apply in_map. eapply gone_in. exact I.
Qed.
Lemma names_at fs d n : disk_ok fs -> In n (names fs d) <-> at_ fs (d ++ [n]) <> None.
Proof.
  intros [N _]. unfold names. rewrite in_flat_map. split.
  - intros ([p e] & I & J). cbn [fst] in J. destruct (name_in d p) as [m|] eqn:E; [|destruct J]. destruct J as [<-|[]].
    apply name_in_eq in E. subst p. rewrite (@in_at fs (d ++ [m]) e N); [discriminate| |exact I]. destruct d; discriminate.
  - intro H. destruct (at_ fs (d ++ [n])) as [e|] eqn:E; [|congruence]. exists (d ++ [n], e). split.
    + apply at_in; [destruct d; discriminate|exact E].
    + cbn [fst]. rewrite (proj2 (name_in_eq d (d ++ [n]) n) eq_refl). left. reflexivity.
Qed.
Lemma names_nodup fs d : NoDup (map fst fs) -> NoDup (names fs d).
Proof.
  unfold names. induction fs as [|[p e] fs IH]; intro N; cbn [flat_map map fst] in *; [constructor|]. inversion N as [|? ? N1 N2]; subst.
  destruct (name_in d p) as [n|] eqn:E; cbn [app]; [|apply IH; exact N2]. constructor; [|apply IH; exact N2].
  apply name_in_eq in E. subst p. intro I. apply in_flat_map in I. destruct I as ([q x] & I & J). cbn [fst] in J.
  destruct (name_in d q) as [m|] eqn:E; [|destruct J]. destruct J as [->|[]]. apply name_in_eq in E. subst q. apply N1.
  apply in_map_iff. exists (d ++ [n], x). auto.
Qed.
(* every file is in a directory *)
Lemma parents fs : disk_ok fs -> forall r q, r <> [] -> at_ fs (q ++ r) <> None -> at_ fs q = Some EDir.
Proof.
  intros [N P] r. induction r as [|n r IH] using rev_ind; intros q Hr H; [congruence|].
  assert (D : at_ fs (q ++ r) = Some EDir).
  { destruct (at_ fs (q ++ r ++ [n])) as [e|] eqn:E; [|congruence]. apply at_in in E; [|destruct q; destruct r; discriminate].
    destruct (P _ _ E) as (d & m & Ed & Dd). rewrite app_assoc in Ed. apply app_inj_tail in Ed. destruct Ed as [-> _]. exact Dd. }
  destruct r as [|x r]; [rewrite app_nil_r in D; exact D|]. apply IH; [discriminate|congruence].
Qed.
Lemma gone_ok fs p : disk_ok fs -> (forall r, r <> [] -> at_ fs (p ++ r) = None) -> disk_ok (gone fs p).
Proof.
  intros H L. destruct H as [N P]. split; [apply gone_nodup; exact N|].
  intros q e I. pose proof (gone_in I) as I'. destruct (P _ _ I') as (d & n & -> & D). exists d, n. split; [reflexivity|].
  rewrite at_gone. destruct (path_eqb d p) eqn:E; [|exact D]. apply path_eqb_eq in E. subst d. exfalso.
  assert (X : at_ fs (p ++ [n]) = Some e) by (apply in_at; [exact N|destruct p; discriminate|exact I']). rewrite L in X; discriminate.
Qed.

Section Calls.
Variable limit : nat.
Variable can : path -> bool.
Notation rmr := (rmdir_recursive limit can).
Lemma real_go fs l todo : forall done, (forall q r, todo = q ++ r -> q <> [] -> at_ fs (done ++ q) = Some EDir) -> real fs l done todo = Some (done ++ todo).
Proof.
  induction todo as [|n r IH]; intros done H.
  - destruct l; cbn [real]; rewrite app_nil_r; reflexivity.
  - assert (E : at_ fs (done ++ [n]) = Some EDir) by (apply (H [n] r); [reflexivity|discriminate]).
    replace (real fs l done (n :: r)) with (real fs l (done ++ [n]) r) by (destruct l; cbn [real]; rewrite E; reflexivity).
    rewrite IH; [rewrite <- app_assoc; reflexivity|]. intros q r' -> Hq. rewrite <- app_assoc. apply (H (n :: q) r'); [reflexivity|discriminate].
Qed.
Lemma real_last fs l n e todo : (match e with ELink _ => False | _ => True end) -> forall done,
  (forall q r, todo = q ++ r -> q <> [] -> at_ fs (done ++ q) = Some EDir) ->
  at_ fs (done ++ todo ++ [n]) = Some e -> real fs l done (todo ++ [n]) = Some (done ++ todo ++ [n]).
Proof.
  intro He. induction todo as [|m r IH]; intros done H E; cbn [app] in *.
  - destruct e; [|destruct l; cbn [real]; rewrite E; reflexivity|destruct He]. destruct l; cbn [real]; rewrite E; reflexivity.
  - assert (Em : at_ fs (done ++ [m]) = Some EDir) by (apply (H [m] r); [reflexivity|discriminate]).
    replace (real fs l done (m :: r ++ [n])) with (real fs l (done ++ [m]) (r ++ [n])) by (destruct l; cbn [real]; rewrite Em; reflexivity).
    rewrite IH; [rewrite <- app_assoc; reflexivity| |rewrite <- app_assoc; exact E].
    intros q r' -> Hq. rewrite <- app_assoc. apply (H (m :: q) r'); [reflexivity|discriminate].
Qed.
Lemma stat_dir fs d : real_dir fs d -> stat limit fs d = Some (d, EDir).
Proof.
  intro H. unfold stat. rewrite real_go by (intros q r E _; apply (H q r E)). cbn [app]. rewrite (H d []) by (rewrite app_nil_r; reflexivity). reflexivity.
Qed.
Lemma stat_entry fs d n e : real_dir fs d -> at_ fs (d ++ [n]) = Some e -> (match e with ELink _ => False | _ => True end) ->
  stat limit fs (d ++ [n]) = Some (d ++ [n], e).
Proof.
  intros H E He. unfold stat. rewrite real_last with (e := e); [cbn [app]; rewrite E; reflexivity|exact He| |exact E].
  intros q r Eq _. apply (H q r Eq).
Qed.
Lemma last_entry fs d n : real_dir fs d -> last_name limit fs (d ++ [n]) = Some (d ++ [n]).
Proof.
  intro H. unfold last_name. rewrite rev_app_distr. cbn [rev app]. rewrite rev_involutive. rewrite real_go by (intros q r E _; apply (H q r E)). reflexivity.
Qed.
Lemma real_dir_snoc fs d n : real_dir fs d -> at_ fs (d ++ [n]) = Some EDir -> real_dir fs (d ++ [n]).
Proof.
  intros H E q r Eq. destruct r as [|x r] using rev_ind; [rewrite app_nil_r in Eq; subst q; exact E|].
  rewrite app_assoc in Eq. apply app_inj_tail in Eq. destruct Eq as [-> _]. apply (H q r eq_refl).
Qed.

(* what a removal below [p] may do *)
Definition removes (p : path) (fs fs' : files) : Prop :=
  disk_ok fs' /\ (forall q, ~ below p q -> at_ fs' q = at_ fs q) /\ forall q, at_ fs' q = at_ fs q \/ at_ fs' q = None.
Lemma removes_refl p fs : disk_ok fs -> removes p fs fs. Proof. intro H. split; [exact H|]. auto. Qed.
Lemma removes_trans p f1 f2 f3 : removes p f1 f2 -> removes p f2 f3 -> removes p f1 f3.
Proof.
  intros (A1 & A2 & A3) (B1 & B2 & B3). split; [exact B1|]. split.
  - intros q H. rewrite B2, A2 by exact H. reflexivity.
  - intro q. destruct (B3 q) as [-> | ->]; auto.
Qed.
Lemma below_app d r q : below (d ++ r) q -> below d q. Proof. intros (x & ->). exists (r ++ x). rewrite app_assoc. reflexivity. Qed.
Lemma removes_up p n f1 f2 : removes (p ++ n) f1 f2 -> removes p f1 f2.
Proof. intros (A1 & A2 & A3). split; [exact A1|]. split; [|exact A3]. intros q H. apply A2. intro X. apply H. eapply below_app. exact X. Qed.
Lemma not_below_own p (n : bytes) : ~ below (p ++ [n]) p.
Proof. intros (r & E). rewrite <- app_assoc in E. rewrite <- (app_nil_r p) in E at 1. apply app_inv_head in E. discriminate. Qed.
Lemma below_snoc p n m q : below (p ++ [n]) q -> below (p ++ [m]) q -> n = m.
Proof. intros (r & ->) (s & E). rewrite <- !app_assoc in E. apply app_inv_head in E. cbn in E. congruence. Qed.
Lemma keeps_dir p fs fs' d : removes p fs fs' -> (forall q r, d = q ++ r -> ~ below p q) -> real_dir fs d -> real_dir fs' d.
Proof. intros (_ & A & _) H R q r E. rewrite A by (eapply H; exact E). apply (R q r E). Qed.
Lemma keeps_links p fs fs' d : removes p fs fs' -> no_links_below fs d -> no_links_below fs' d.
Proof. intros (_ & _ & A) H q t B E. destruct (A q) as [X|X]; rewrite X in E; [|discriminate]. exact (H q t B E). Qed.
Lemma prefix_not_below p n q r : p = q ++ r -> ~ below (p ++ [n]) q.
Proof.
  intros -> (s & E). apply (f_equal (@length _)) in E. rewrite !app_length in E. cbn in E. lia.
Qed.

(* no path is longer; the outcomes that may happen *)
Definition short (N : nat) (fs : files) : Prop := forall q, at_ fs q <> None -> length q < N.
Definition fine (p : path) (good : outcome -> Prop) : Prop := good Returns /\ (good Exit2 \/ forall q, below p q -> can q = true).
Lemma keeps_short N p fs fs' : removes p fs fs' -> short N fs -> short N fs'.
Proof. intros (_ & _ & A) H q E. destruct (A q) as [X|X]; rewrite X in E; [exact (H q E)|congruence]. Qed.
Definition spec (recur : files -> path -> files * outcome) (N : nat) (good : outcome -> Prop) (p : path) : Prop :=
  forall fs fs' o, disk_ok fs -> real_dir fs p -> p <> [] -> no_links_below fs p -> recur fs p = (fs', o) ->
    removes p fs fs' /\ (o = Returns -> forall q, below p q -> at_ fs' q = None) /\ (short N fs -> good o).
Lemma all_removed recur p N good l : (forall n, In n l -> spec recur N good (p ++ [n])) -> fine p good -> NoDup l ->
  forall fs fs' o, disk_ok fs -> real_dir fs p -> no_links_below fs p -> (forall n, In n l -> at_ fs (p ++ [n]) <> None) ->
  remove_all limit can recur p l fs = (fs', o) ->
  removes p fs fs' /\ at_ fs' p = at_ fs p /\ (o = Returns -> forall n q, In n l -> below (p ++ [n]) q -> at_ fs' q = None) /\ (short N fs -> good o).
Proof.
  intros Sp [Gr Can]. induction l as [|n l IH]; intros Nd fs fs' o D R L Ex H; cbn [remove_all] in H.
  - inv H. split; [apply removes_refl; exact D|]. split; [reflexivity|]. split; [intros _ n q []|intros _; exact Gr].
  - inversion Nd as [|? ? Nd1 Nd2]; subst. destruct (at_ fs (p ++ [n])) as [e|] eqn:E; [|exfalso; apply (Ex n); [left; reflexivity|exact E]].
    assert (He : match e with ELink _ => False | _ => True end).
    { destruct e as [| |t]; try exact I. apply (L (p ++ [n]) t); [exists [n]; reflexivity|exact E]. }
    rewrite (stat_entry R E He) in H.
    assert (Next : forall fs1, removes (p ++ [n]) fs fs1 -> (forall q, below (p ++ [n]) q -> at_ fs1 q = None) -> remove_all limit can recur p l fs1 = (fs', o) ->
      removes p fs fs' /\ at_ fs' p = at_ fs p /\ (o = Returns -> forall m q, In m (n :: l) -> below (p ++ [m]) q -> at_ fs' q = None) /\ (short N fs -> good o)).
    { intros fs1 R1 G1 H1. pose proof R1 as (D1 & A1 & _).
      destruct (IH (fun m Hm => Sp m (or_intror Hm)) Nd2 fs1 fs' o D1) as (B1 & B2 & B3 & B4).
      - eapply keeps_dir; [exact R1| |exact R]. intros q r Eq. eapply prefix_not_below. exact Eq.
      - eapply keeps_links; [exact R1|exact L].
      - intros m Hm. rewrite A1; [apply Ex; right; exact Hm|]. intros X. apply Nd1. replace n with m; [exact Hm|].
        symmetry. eapply below_snoc; [exact X|]. exists []. rewrite app_nil_r. reflexivity.
      - exact H1.
      - split; [eapply removes_trans; [eapply removes_up; exact R1|exact B1]|]. split; [rewrite B2; apply A1; apply not_below_own|].
        split; [|intro Sh; apply B4; eapply keeps_short; [exact R1|exact Sh]]. intros Ho m q [<-|Hm] Bq; [|eapply B3; eassumption].
        destruct B1 as (_ & _ & B). destruct (B q) as [-> | ->]; [apply G1; exact Bq|reflexivity]. }
    destruct e as [| |t]; [| |destruct He].
    + unfold unlink in H. rewrite (last_entry n R), E in H. destruct (can (p ++ [n])) eqn:C.
      * assert (Lf : forall r, r <> [] -> at_ fs ((p ++ [n]) ++ r) = None).
        { intros r Hr. destruct (at_ fs ((p ++ [n]) ++ r)) eqn:X; [|reflexivity]. rewrite (parents D) with (r := r) in E; congruence. }
        apply Next with (fs1 := gone fs (p ++ [n])); [| |exact H].
        -- split; [apply gone_ok; assumption|]. split.
           ++ intros q Hq. rewrite at_gone. destruct (path_eqb q (p ++ [n])) eqn:Eq; [|reflexivity]. apply path_eqb_eq in Eq. subst. exfalso. apply Hq. exists []. rewrite app_nil_r. reflexivity.
           ++ intro q. rewrite at_gone. destruct (path_eqb q (p ++ [n])) eqn:Eq; [|auto]. destruct q; auto.
        -- intros q (r & ->). rewrite at_gone. destruct (path_eqb _ _) eqn:Eq; [destruct p; reflexivity|]. destruct r as [|x r]; [|apply Lf; discriminate].
           exfalso. rewrite app_nil_r in Eq. apply path_eqb_neq in Eq. congruence.
      * inv H. split; [apply removes_refl; exact D|]. split; [reflexivity|]. split; [discriminate|]. intros _. destruct Can as [G|Can]; [exact G|]. rewrite Can in C; [discriminate|exists [n]; reflexivity].
    + destruct (recur fs (p ++ [n])) as [fs1 o1] eqn:Er.
      destruct (Sp n (or_introl eq_refl) fs fs1 o1 D) as (S1 & S2 & S3); [apply real_dir_snoc; assumption|destruct p; discriminate| |exact Er|].
      { intros q t B X. apply (L q t); [eapply below_app; exact B|exact X]. }
      destruct o1.
      * apply Next with (fs1 := fs1); [exact S1|apply S2; reflexivity|exact H].
      * inv H. pose proof S1 as (_ & A1 & _). split; [eapply removes_up; exact S1|]. split; [apply A1; apply not_below_own|]. split; [discriminate|exact S3].
      * inv H. pose proof S1 as (_ & A1 & _). split; [eapply removes_up; exact S1|]. split; [apply A1; apply not_below_own|]. split; [discriminate|exact S3].
Qed.

Lemma tree_removed N good depth : forall p, fine p good -> N <= length p + depth -> spec (rmr depth) N good p.
Proof.
  induction depth as [|depth IH]; intros p F Hd fs fs' o D R Np L H; cbn [rmdir_recursive] in H.
  - inv H. split; [apply removes_refl; exact D|]. split; [discriminate|]. intro X.
    exfalso. specialize (X p). rewrite (R p []) in X by (rewrite app_nil_r; reflexivity). cut (length p < N); [lia|]. apply X; discriminate.
  - assert (Bp : below p p) by (exists []; rewrite app_nil_r; reflexivity). pose proof F as [Gr Can].
    rewrite (stat_dir R) in H. destruct (can p) eqn:C; cbn [negb] in H.
    2:{ inv H. split; [apply removes_refl; exact D|]. split; [discriminate|]. intros _. destruct Can as [G|Can]; [exact G|]. rewrite Can in C; [discriminate|exact Bp]. }
    destruct (remove_all limit can (rmr depth) p (names fs p) fs) as [fs1 o1] eqn:Er.
    assert (Sp : forall n, In n (names fs p) -> spec (rmr depth) N good (p ++ [n])).
    { intros n _. apply IH; [|rewrite app_length; cbn; lia]. split; [exact Gr|]. destruct Can as [G|Can]; [left; exact G|right].
      intros q Hq. apply Can. eapply below_app. exact Hq. }
    destruct (all_removed Sp F (names_nodup p (proj1 D)) D R L (fun n Hn => proj1 (names_at p n D) Hn) Er) as (A1 & A2 & A3 & A4).
    destruct o1; [|inv H; split; [exact A1|]; split; [discriminate|exact A4]|inv H; split; [exact A1|]; split; [discriminate|exact A4]].
    pose proof A1 as (D1 & U1 & V1).
    assert (E1 : forall r, r <> [] -> at_ fs1 (p ++ r) = None).
    { intros [|n r] Hr; [congruence|]. destruct (at_ fs (p ++ n :: r)) eqn:E.
      - apply (A3 eq_refl n); [|exists r; rewrite <- app_assoc; reflexivity]. apply (names_at p n D). destruct r as [|m r]; [congruence|].
        rewrite (parents D) with (r := m :: r); [discriminate|discriminate|]. rewrite <- app_assoc. cbn [app]. congruence.
      - destruct (V1 (p ++ n :: r)) as [-> | ->]; [exact E|reflexivity]. }
    assert (En : names fs1 p = []).
    { destruct (names fs1 p) as [|n l] eqn:E; [reflexivity|]. exfalso. assert (I : In n (names fs1 p)) by (rewrite E; left; reflexivity).
      apply (names_at p n D1) in I. apply I. apply E1. discriminate. }
    assert (Ep : at_ fs1 p = Some EDir) by (rewrite A2; apply (R p []); rewrite app_nil_r; reflexivity).
    assert (El : last_name limit fs1 p = Some p).
    { destruct p as [|n p' _] using rev_ind; [congruence|]. apply last_entry. intros q r Eq. rewrite U1; [apply (R q (r ++ [n])); rewrite Eq, app_assoc; reflexivity|].
      eapply prefix_not_below. exact Eq. }
    unfold rmdir in H. rewrite El, Ep, En, C in H. inv H. split; [|split].
    + eapply removes_trans; [exact A1|]. split; [apply gone_ok; assumption|]. split.
      * intros q Hq. rewrite at_gone. destruct (path_eqb q p) eqn:Eq; [|reflexivity]. apply path_eqb_eq in Eq. subst q. contradiction.
      * intro q. rewrite at_gone. destruct (path_eqb q p) eqn:Eq; [|auto]. destruct q; auto.
    + intros _ q (r & ->). rewrite at_gone. destruct (path_eqb _ _) eqn:Eq; [destruct p; [congruence|reflexivity]|]. apply E1. intros ->.
      rewrite app_nil_r in Eq. apply path_eqb_neq in Eq. congruence.
    + intros _. exact Gr.
Qed.

(* ------------------------------------------------------------------------- C80 *)
(* Removing a directory without links below it: nothing else is changed, even if it cannot
   be removed completely; when the call returns, nothing of it is left; and it is left, or
   the process ended, only if something may not be removed. *)
Theorem C80_removed_partial depth fs p fs' o :
  disk_ok fs -> real_dir fs p -> p <> [] -> no_links_below fs p -> rmdir_recursive limit can depth fs p = (fs', o) ->
  (forall q, ~ below p q -> at_ fs' q = at_ fs q) /\
  (forall q, at_ fs' q = at_ fs q \/ at_ fs' q = None) /\
  (o = Returns -> forall q, below p q -> at_ fs' q = None) /\
  ((forall q, at_ fs q <> None -> length q <= depth) -> o <> TooDeep /\ ((forall q, below p q -> can q = true) -> o = Returns)).
Proof.
  intros D R Np L H.
  assert (F1 : fine p (fun o => o <> TooDeep)) by (split; [discriminate|left; discriminate]).
  assert (Lp : 1 <= length p) by (destruct p; [congruence|cbn; lia]).
  destruct (tree_removed F1 (N := 1 + depth) (depth := depth) ltac:(lia) D R Np L H) as ((_ & A1 & A2) & A3 & A4).
  split; [exact A1|]. split; [exact A2|]. split; [exact A3|]. intro S.
  assert (S' : short (1 + depth) fs) by (intros q Hq; specialize (S q Hq); lia). split; [apply A4; exact S'|]. intro Can.
  assert (F2 : fine p (fun o => o = Returns)) by (split; [reflexivity|right; exact Can]).
  destruct (tree_removed F2 (N := 1 + depth) (depth := depth) ltac:(lia) D R Np L H) as (_ & _ & B). apply B. exact S'.
Qed.
(* If there is nothing it returns; a file that is no directory is left *)
Theorem C80_other depth fs d n : real_dir fs d ->
  (at_ fs (d ++ [n]) = None -> rmdir_recursive limit can (S depth) fs (d ++ [n]) = (fs, Returns)) /\
  (at_ fs (d ++ [n]) = Some EFile -> rmdir_recursive limit can (S depth) fs (d ++ [n]) = (fs, Exit2)).
Proof.
  intro R. split; intro E; cbn [rmdir_recursive].
  - assert (S : stat limit fs (d ++ [n]) = None); [|rewrite S; reflexivity].
    assert (K : forall l todo done, (forall q r, todo = q ++ r -> q <> [] -> at_ fs (done ++ q) = Some EDir) ->
      at_ fs (done ++ todo ++ [n]) = None -> real fs l done (todo ++ [n]) = None).
    { intro l. induction todo as [|m r IH]; intros done H En; cbn [app] in *.
      - destruct l; cbn [real]; rewrite En; reflexivity.
      - assert (Em : at_ fs (done ++ [m]) = Some EDir) by (apply (H [m] r); [reflexivity|discriminate]).
        replace (real fs l done (m :: r ++ [n])) with (real fs l (done ++ [m]) (r ++ [n])) by (destruct l; cbn [real]; rewrite Em; reflexivity).
        apply IH; [|rewrite <- app_assoc; exact En]. intros q r' -> Hq. rewrite <- app_assoc. apply (H (m :: q) r'); [reflexivity|discriminate]. }
    unfold stat. rewrite K; [reflexivity| |exact E]. intros q r -> Hq. apply (R q r). reflexivity.
  - rewrite (stat_entry R E I). reflexivity.
Qed.
End Calls.
Print Assumptions C80_removed_partial.
Print Assumptions C80_other.

Ltac inside d := exists d; eexists; split; [reflexivity|vm_compute; reflexivity].
(* a build with a page and a directory *)
Definition ex_disk : files :=
  [([B "b"], EDir); ([B "b"; B "index.html"], EFile); ([B "b"; B "d"], EDir); ([B "b"; B "d"; B "x"], EFile); ([B "home"], EDir); ([B "home"; B "f"], EFile)].
Example C80_ex : disk_ok ex_disk /\ real_dir ex_disk [B "b"] /\ no_links_below ex_disk [B "b"] /\
  rmdir_recursive 40 (fun _ => true) 9 ex_disk [B "b"] = ([([B "home"], EDir); ([B "home"; B "f"], EFile)], Returns).
Proof.
  split; [|split; [|split]].
  - split; [repeat (constructor; [vm_compute; intuition discriminate|]); constructor|]. intros p e I. cbn in I.
    repeat (destruct I as [E|I]; [inv E; first [inside (@nil bytes) | inside [B "b"] | inside [B "b"; B "d"] | inside [B "home"]]|]). destruct I.
  - intros q r E. destruct q as [|a [|b q]]; [reflexivity| |discriminate]. inv E. reflexivity.
  - intros q t _ E. destruct q as [|a q]; [discriminate|]. apply at_in in E; [|discriminate]. cbn in E. intuition congruence.
  - vm_compute. reflexivity.
Qed.
Example C80_other_ex : real_dir ex_disk [B "b"; B "d"] /\ at_ ex_disk ([B "b"; B "d"] ++ [B "y"]) = None /\ at_ ex_disk ([B "b"; B "d"] ++ [B "x"]) = Some EFile.
Proof.
  split; [|split; reflexivity]. intros q r E. destruct q as [|a [|b [|c q]]]; [reflexivity|injection E as <- _; reflexivity|injection E as <- <- _; reflexivity|discriminate].
Qed.
(* stat follows links: the files of a directory outside that the build links to are
   removed, and then the removal of the link itself fails *)
Definition linked_disk (target : path) : files :=
  [([B "b"], EDir); ([B "b"; B "photos"], ELink target); ([B "home"], EDir); ([B "home"; B "f"], EFile)].
(* a link to a file is removed like a file, and the file stays *)
Example C80_link : rmdir_recursive 40 (fun _ => true) 9 (linked_disk [B "home"; B "f"]) [B "b"] = ([([B "home"], EDir); ([B "home"; B "f"], EFile)], Returns).
Proof. vm_compute. reflexivity. Qed.
Theorem C80_refuted : exists fs p q fs', disk_ok fs /\ real_dir fs p /\ p <> [] /\ ~ below p q /\
  rmdir_recursive 40 (fun _ => true) 9 fs p = (fs', Exit2) /\ at_ fs q = Some EFile /\ at_ fs' q = None /\ at_ fs' p = Some EDir.
Proof.
  exists (linked_disk [B "home"]), [B "b"], [B "home"; B "f"]. eexists. split; [|split; [|split; [|split; [|split; [|split; [|split]]]]]].
  - split; [repeat (constructor; [vm_compute; intuition discriminate|]); constructor|]. intros p e I. cbn in I.
    repeat (destruct I as [E|I]; [inv E; first [inside (@nil bytes) | inside [B "b"] | inside [B "home"]]|]). destruct I.
  - intros q r E. destruct q as [|a [|b q]]; [reflexivity| |discriminate]. inv E. reflexivity.
  - discriminate.
  - intros (r & E). discriminate.
  - vm_compute. reflexivity.
  - reflexivity.
  - reflexivity.
  - reflexivity.
Qed.
Print Assumptions C80_refuted.
(* a link that leads nowhere stops the removal *)
Theorem C80_dangling : exists fs', rmdir_recursive 40 (fun _ => true) 9 (linked_disk [B "old"]) [B "b"] = (fs', Exit2) /\ at_ fs' [B "b"; B "photos"] <> None.
Proof. eexists. split; [vm_compute; reflexivity|]. vm_compute. discriminate. Qed.
Print Assumptions C80_dangling.
(* This happens to the old build after the new one was published: git is told that the push
   failed, but the new site is there. *)
Theorem C80_rejected_refuted : exists tmp dir old w t w', Deploy.published w old /\ Deploy.dirs w dir = Deploy.Absent /\ tmp <> dir /\ tmp <> dir ++ B "-" /\
  trace (Deploy.deploy tmp dir old) t (Some 2) /\ runs Deploy.dstep w t w' /\ Deploy.published w' dir.
Proof.
  exists (B "/tmp/x"), (B "builds/def-2"), (B "builds/abc-1"), P_Deploy.old_site.
  exists (P_Deploy.good_calls ++ [(Deploy.SymlinkSym (B "builds/def-2"), true); (Deploy.Exists (B "builds/abc-1"), true);
    (Deploy.RemoveBegin (B "builds/abc-1"), true); (Deploy.RemoveEnd (B "builds/abc-1"), false)]).
  eexists. split; [split; reflexivity|]. split; [reflexivity|]. split; [discriminate|]. split; [discriminate|].
  split; [cbn [app P_Deploy.good_calls]; unfold Deploy.deploy; P_Deploy.steps|]. split; [cbn [app P_Deploy.good_calls]; P_Deploy.steps; eapply R_cons; [apply Deploy.S_removed_not|apply R_nil]|]. split; vm_compute; reflexivity.
Qed.
Print Assumptions C80_rejected_refuted.
