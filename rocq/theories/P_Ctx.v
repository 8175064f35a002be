(* C50, C70, C71: what blogc-make knows of a site, and watching it (src/blogc-make/ctx.c,
   reloader.c). *)
From Verif Require Import Base Utils Trie Settings Filename BlogcCmd Rules RulesSpec P_Rules BuildSpec P_Build Ctx CtxSpec.
From Verif Require P_Filename P_Settings.
From Coq Require Import ZArith Lia.
#[local] Open Scope nat_scope.
#[local] Arguments B : simpl never.

Section Facts.
Variable W : Type.
Variable stat : W -> bytes -> option (Z * Z).
Variable look_at : W -> bytes -> node.
Variable contents : W -> bytes -> option bytes.
Variable getcwd : W -> option bytes.
Variable mkstemp : W -> settings -> W * option bytes.
Variable unlink : W -> bytes -> W.
Variable output_env : option bytes.

Notation ctx_new := (ctx_new stat look_at contents getcwd mkstemp unlink output_env).
Notation ctx_reload := (ctx_reload stat look_at contents getcwd mkstemp unlink output_env).
Notation turn := (turn stat look_at contents getcwd mkstemp unlink output_env).

Lemma Ok_inj {A} (a b : A) : Ok a = Ok b -> a = b.
Proof. now intros [= ->]. Qed.
Definition place (root n : bytes) : bytes := if starts_slash n then n else root ++ B "/" ++ n.
Lemma absolute_of c n : absolute c n = place (c_root c) n.
Proof. unfold absolute, place, starts_slash. destruct n as [| x n]; [ reflexivity |]. now destruct (x == "/"%char). Qed.

Lemma file_looked c w n : looked stat w c n (file stat (c_root c) w n).
Proof.
  unfold looked, file. rewrite absolute_of. unfold place. destruct (stat w _) as [t |] eqn:E; cbn; auto.
Qed.
Lemma new_looked c w n s : exists f, filectx_new stat (c_root c) w (Some n) (Some s) = Some f /\ f_slug f = Some s /\ looked stat w c n f.
Proof.
  unfold filectx_new, looked. rewrite absolute_of. unfold place. destruct (stat w _) as [t |] eqn:E; eexists; split; try reflexivity; cbn; auto.
Qed.

(* ---- the files to copy ---- *)
Definition in_tree w c (n : bytes) (l l' : list fctx) : Prop :=
  exists m, l' = l ++ m /\ (forall f, In f m -> f_slug f = None /\ looked stat w c (f_short f) f) /\
    (forall x, (exists f, In f m /\ f_short f = x) <-> holds stat look_at w c n x).

Lemma tree_spec w c : forall fuel l n l', filectx_new_r stat look_at fuel (c_root c) w l n = Ok l' -> in_tree w c n l l'.
Proof.
  induction fuel as [| fuel IH]; intros l n l' H; [ discriminate H |]. cbn [filectx_new_r] in H.
  fold (place (c_root c) n) in H. rewrite <- absolute_of in H.
  destruct (stat w (absolute c n)) as [t |] eqn:E.
  2:{ inv H. exists []. rewrite app_nil_r. split; [ reflexivity |]. split; [ intros f [] |]. intros x. split; [ intros (f & [] & _) |].
      intros X; inv X; congruence. }
  destruct (look_at w (absolute c n)) as [| names |] eqn:L.
  - inv H. eexists. split; [ reflexivity |]. split.
    + intros f [<- | []]. cbn. split; [ reflexivity |]. unfold looked. cbn. rewrite E. auto.
    + intros x. split.
      * intros (f & [<- | []] & <-). cbn. apply H_file; congruence.
      * intros X. inv X; [| congruence ]. eexists. split; [ left; reflexivity | reflexivity ].
  - assert (G : forall names' l l',
        fold_left (fun (l : res (list fctx)) e => do l <- l ;
           if beq e (B ".") || beq e (B "..") then Ok l else filectx_new_r stat look_at fuel (c_root c) w l (n ++ B "/" ++ e)) names' (Ok l) = Ok l' ->
        exists m, l' = l ++ m /\ (forall f, In f m -> f_slug f = None /\ looked stat w c (f_short f) f) /\
          (forall x, (exists f, In f m /\ f_short f = x) <->
             exists e, In e names' /\ e <> B "." /\ e <> B ".." /\ holds stat look_at w c (n ++ B "/" ++ e) x)).
    { clear H l l' L. induction names' as [| e r IHr]; intros l l' H; cbn [fold_left] in H.
      - inv H. exists []. rewrite app_nil_r. split; [ reflexivity |]. split; [ intros f [] |]. intros x. split; [ intros (f & [] & _) | intros (e & [] & _) ].
      - destruct (beq e (B ".")) eqn:E1; [| destruct (beq e (B "..")) eqn:E2 ]; cbn [orb rbind] in H.
        + apply beq_eq in E1. destruct (IHr _ _ H) as (m & -> & M1 & M2). exists m. split; [ reflexivity |]. split; [ exact M1 |].
          intros x. rewrite M2. split; intros (e' & I & R); [ exists e'; split; [ now right | exact R ] |].
          destruct I as [<- | I]; [ destruct R as (R & _); now destruct (R E1) | now exists e' ].
        + apply beq_eq in E2. destruct (IHr _ _ H) as (m & -> & M1 & M2). exists m. split; [ reflexivity |]. split; [ exact M1 |].
          intros x. rewrite M2. split; intros (e' & I & R); [ exists e'; split; [ now right | exact R ] |].
          destruct I as [<- | I]; [ destruct R as (_ & R & _); now destruct (R E2) | now exists e' ].
        + apply beq_neq in E1, E2.
          destruct (filectx_new_r stat look_at fuel (c_root c) w l (n ++ B "/" ++ e)) as [l1 | |] eqn:F.
          2, 3: exfalso; clear - H; revert H; induction r as [| e' r IHr']; cbn [fold_left]; [ discriminate | exact IHr' ].
          destruct (IH _ _ _ F) as (m1 & -> & N1 & N2). destruct (IHr _ _ H) as (m2 & -> & M1 & M2).
          exists (m1 ++ m2). rewrite app_assoc. split; [ reflexivity |]. split.
          * intros f I. apply in_app_or in I. destruct I; auto.
          * intros x. split.
            -- intros (f & I & X). apply in_app_or in I. destruct I as [I | I].
               ++ exists e. split; [ now left |]. split; [ exact E1 |]. split; [ exact E2 |]. apply N2. eauto.
               ++ destruct (proj1 (M2 x)) as (e' & I' & R); [ eauto |]. exists e'. split; [ now right | exact R ].
            -- intros (e' & [<- | I] & R1 & R2 & R3).
               ++ destruct (proj2 (N2 x) R3) as (f & I & X). exists f. split; [ apply in_or_app; now left | exact X ].
               ++ destruct (proj2 (M2 x)) as (f & I' & X); [ exists e'; auto |]. exists f. split; [ apply in_or_app; now right | exact X ]. }
    destruct (G _ _ _ H) as (m & -> & M1 & M2). exists m. split; [ reflexivity |]. split; [ exact M1 |].
    intros x. rewrite M2. split.
    + intros (e & I & R1 & R2 & R3). eapply H_folder; eauto. congruence.
    + intros X. inv X; [ congruence |]. rewrite L in H1. inv H1. eauto.
  - inv H. exists []. rewrite app_nil_r. split; [ reflexivity |]. split; [ intros f [] |]. intros x. split; [ intros (f & [] & _) |].
    intros X; inv X; congruence.
Qed.

Lemma copies_spec w c fuel : forall names l l', copy_files stat look_at fuel (c_root c) w l names = Ok l' ->
  exists m, l' = l ++ m /\ (forall f, In f m -> f_slug f = None /\ looked stat w c (f_short f) f) /\
    (forall x, (exists f, In f m /\ f_short f = x) <-> exists n, In n names /\ holds stat look_at w c n x).
Proof.
  induction names as [| n r IH]; intros l l' H; cbn [copy_files] in H.
  - inv H. exists []. rewrite app_nil_r. split; [ reflexivity |]. split; [ intros f [] |]. intros x. split; [ intros (f & [] & _) | intros (n & [] & _) ].
  - destruct (filectx_new_r stat look_at fuel (c_root c) w l n) as [l1 | |] eqn:F; [| discriminate H | discriminate H ].
    destruct (tree_spec F) as (m1 & -> & N1 & N2). destruct (IH _ _ H) as (m2 & -> & M1 & M2).
    exists (m1 ++ m2). rewrite app_assoc. split; [ reflexivity |]. split.
    + intros f I. apply in_app_or in I. destruct I; auto.
    + intros x. split.
      * intros (f & I & X). apply in_app_or in I. destruct I as [I | I].
        -- exists n. split; [ now left |]. apply N2. eauto.
        -- destruct (proj1 (M2 x)) as (e' & I' & R); [ eauto |]. exists e'. split; [ now right | exact R ].
      * intros (e' & [<- | I] & R).
        -- destruct (proj2 (N2 x) R) as (f & I & X). exists f. split; [ apply in_or_app; now left | exact X ].
        -- destruct (proj2 (M2 x)) as (f & I' & X); [ exists e'; auto |]. exists f. split; [ apply in_or_app; now right | exact X ].
Qed.

Lemma source_spec c w gp p n x : x = filectx_new stat (c_root c) w (generate_filename (look c (B "content_dir")) gp p (Some n) (look c (B "source_ext"))) (Some n) ->
  source stat w c gp p n x.
Proof.
  intros ->. unfold source. destruct (generate_filename _ _ _ _ _) as [m |]; [| reflexivity ]. apply new_looked.
Qed.

Lemma fill_site fuel blogc rs dev w abs st atom tmp c :
  fill stat look_at output_env fuel blogc rs dev w abs st atom tmp = Ok c ->
  site stat look_at w st (dirname abs) (match output_env with Some o => o | None => B "_build" end) abs atom c /\
  c_atom_tmp c = tmp /\ e_dev (c_exec c) = dev /\ e_blogc (c_exec c) = blogc /\ e_runserver (c_exec c) = rs.
Proof.
  unfold fill. intros H. destruct (copy_files _ _ _ _ _ _ _) as [copies | |] eqn:E; [| discriminate H | discriminate H ].
  cbn [rbind] in H. apply Ok_inj in H. set (root := dirname abs) in *. subst c.
  match goal with |- site _ _ _ _ _ _ _ _ ?x /\ _ => set (c := x) end.
  assert (R : c_root c = root) by reflexivity.
  split; [| auto ]. unfold site.
  split; [ reflexivity |]. split; [ reflexivity |]. split; [ reflexivity |]. split; [ rewrite absolute_of; reflexivity |].
  rewrite <- R in *.
  split; [ apply file_looked |]. split; [ apply file_looked |]. split; [ apply file_looked |].
  split. { change (look c (B "listing_entry")) with (lk st (B "listing_entry")).
    destruct (lk st (B "listing_entry")) as [e |] eqn:X; [ apply source_spec |]; cbn [c c_entry]; rewrite ?X; reflexivity. }
  split. { cbn [c c_posts]. induction (match s_posts st with Some l => l | None => [] end); cbn [map]; constructor; auto. now apply source_spec. }
  split. { cbn [c c_pages]. induction (match s_pages st with Some l => l | None => [] end); cbn [map]; constructor; auto. now apply source_spec. }
  destruct (copies_spec E) as (m & M0 & M1 & M2). cbn [app] in M0. subst m.
  split; [ exact M1 |]. intros x. change (c_copy c) with copies. rewrite M2. clear. destruct (s_copy st) as [l |].
  - split; [ intros (n & I & R); exists l, n; auto | intros (l' & n & X & R); inv X; eauto ].
  - split; [ intros (n & [] & _) | intros (l & n & X & _); discriminate X ].
Qed.

(* ---- bm_ctx_new ---- *)
Notation short := (match output_env with Some o => o | None => B "_build" end).

Notation made := (made stat look_at contents getcwd mkstemp output_env).
Lemma slash_some d : starts_slash d = true -> exists r, d = "/"%char :: r.
Proof. destruct d as [| x d]; cbn [starts_slash]; [ discriminate |]. intros E. apply eqb_true in E. subst x. eauto. Qed.
Lemma abspath_spec w path abs : abspath getcwd w path = Some abs -> full_name getcwd w path abs.
Proof.
  unfold abspath, full_name. destruct (starts_slash path) eqn:E.
  - intros [= <-]. left. split; [ now apply slash_some | reflexivity ].
  - intros H. right. split; [ intros [r ->]; discriminate E |]. destruct (getcwd w) as [d |]; [| discriminate H ].
    destruct (starts_slash d) eqn:D; [| discriminate H ]. destruct (slash_some D) as [r ->].
    apply (f_equal (fun o => match o with Some a => a | None => [] end)) in H. cbn beta iota in H. eauto.
Qed.
Lemma full_name_slash w path abs : full_name getcwd w path abs -> starts_slash abs = true.
Proof. intros [[[r ->] ->] | [_ (d & _ & ->)]]; reflexivity. Qed.

Lemma new_made fuel base blogc rs w path w' c :
  ctx_new fuel base blogc rs w path = (w', Ok (Some c)) ->
  made w w' path c /\
  match base with
  | Some b => e_blogc (c_exec c) = e_blogc (c_exec b) /\ e_runserver (c_exec c) = e_runserver (c_exec b) /\ e_dev (c_exec c) = e_dev (c_exec b)
  | None => e_blogc (c_exec c) = blogc /\ e_runserver (c_exec c) = rs /\ e_dev (c_exec c) = false
  end.
Proof.
  unfold ctx_new, Ctx.ctx_new, CtxSpec.made. intros H. destruct (abspath getcwd w path) as [abs |] eqn:Ab; [| discriminate H ].
  destruct (contents w abs) as [content |] eqn:C; [| discriminate H ].
  destruct (settings_parse content) as [[st | e] | |] eqn:P; try discriminate H.
  destruct (match lk st (B "atom_template") with
            | Some t => (w, Some (lk_str st (B "template_dir") ++ B "/" ++ t))
            | None => atom_deploy mkstemp w st end) as [w1 atom] eqn:A.
  destruct atom as [atom |]; [| discriminate H ].
  assert (F : forall blogc rs dev w2 tmp,
            (w2, do c <- fill stat look_at output_env fuel blogc rs dev w2 abs st atom tmp ; Ok (Some c)) = (w', Ok (Some c)) ->
            (site stat look_at w' st (dirname abs) short abs atom c /\ c_atom_tmp c = tmp) /\
            e_blogc (c_exec c) = blogc /\ e_runserver (c_exec c) = rs /\ e_dev (c_exec c) = dev).
  { intros b r d w2 tmp X. assert (E := f_equal fst X). cbn [fst] in E. subst w2. apply (f_equal snd) in X. cbn [snd] in X.
    revert X; destruct (fill stat look_at output_env fuel b r d w' abs st atom tmp) as [c1 | |] eqn:G; intros X; cbn [rbind] in X; [| discriminate X | discriminate X ]. apply Ok_inj in X.
    assert (c1 = c) by congruence. subst c1. destruct (fill_site G) as (S & T & D & B1 & B2). auto. }
  assert (Y : (site stat look_at w' st (dirname abs) short abs atom c /\ c_atom_tmp c = match lk st (B "atom_template") with Some _ => false | None => true end) /\
              match base with
              | Some b => e_blogc (c_exec c) = e_blogc (c_exec b) /\ e_runserver (c_exec c) = e_runserver (c_exec b) /\ e_dev (c_exec c) = e_dev (c_exec b)
              | None => e_blogc (c_exec c) = blogc /\ e_runserver (c_exec c) = rs /\ e_dev (c_exec c) = false
              end) by (destruct base; exact (F _ _ _ _ _ H)).
  destruct Y as [[S T] U]. split; [| exact U ]. exists abs, content, st, atom.
  split; [ exact (abspath_spec Ab) |]. split; [ exact C |]. split; [ exact P |]. split; [ exact S |].
  change (trie_lookup (s_settings st) (B "atom_template")) with (lk st (B "atom_template")).
  destruct (lk st (B "atom_template")) as [t |] eqn:L.
  - split; [ exact T |]. apply (f_equal snd) in A. cbn [snd] in A. assert (E : c_st c = st) by apply S.
    unfold look_str, look. rewrite E. unfold lk_str, lk in A. congruence.
  - split; [ exact T |]. unfold atom_deploy in A. destruct (trie_lookup (s_settings st) (B "atom_legacy_entry_id")); [ discriminate A |].
    split; [ reflexivity |]. now rewrite A.
Qed.

(* ---- what a context records ---- *)
(* no time recorded is later than the one on the disk *)
Definition recorded (w : W) (c : ctx) : Prop := forall f, In f (inputs c) ->
  if f_readable f then exists t, stat w (f_path f) = Some t /\ not_later (f_time f) t else f_time f = (0%Z, 0%Z).
(* the times recorded are those on the disk *)
Definition fresh (w : W) (c : ctx) : Prop := forall f, In f (inputs c) -> forall t, stat w (f_path f) = Some t -> after_1970 t ->
  f_readable f = true /\ f_time f = t.
Definition shape (c : ctx) : Prop :=
  (forall l, s_posts (c_st c) = Some l -> length l = length (c_posts c) /\ (~ In [] l -> ~ In None (c_posts c))) /\
  (forall l, s_pages (c_st c) = Some l -> length l = length (c_pages c) /\ (~ In [] l -> ~ In None (c_pages c))) /\
  (s_posts (c_st c) = None -> c_posts c = []) /\ (s_pages (c_st c) = None -> c_pages c = []).
Definition rooted (c : ctx) : Prop := starts_slash (f_path (c_settings c)) = true.
Lemma made_rooted w0 w path c : made w0 w path c -> rooted c.
Proof.
  intros (abs & content & st & atom & F & _ & _ & (_ & _ & _ & _ & (_ & P & _) & _) & _). unfold rooted. rewrite P, absolute_of.
  unfold place. rewrite (full_name_slash F). exact (full_name_slash F).
Qed.

Lemma looked_recorded w c n f : looked stat w c n f ->
  if f_readable f then exists t, stat w (f_path f) = Some t /\ not_later (f_time f) t else f_time f = (0%Z, 0%Z).
Proof.
  intros (_ & P & L). rewrite P. destruct (stat w (absolute c n)) as [t |].
  - destruct L as [-> ->]. exists t. split; [ reflexivity | apply not_later_refl ].
  - now destruct L as [-> ->].
Qed.
Lemma looked_fresh w c n f : looked stat w c n f -> forall t, stat w (f_path f) = Some t -> f_readable f = true /\ f_time f = t.
Proof. intros (_ & P & L) t E. rewrite P in E. rewrite E in L. exact L. Qed.

Lemma somes_in A (l : list (option A)) x : In x (somes l) <-> In (Some x) l.
Proof.
  unfold somes. rewrite in_flat_map. split.
  - intros ([y |] & I & J); [| destruct J ]. destruct J as [<- | []]. exact I.
  - intros I. exists (Some x). split; [ exact I | now left ].
Qed.

Lemma site_inputs w st root sh abs atom c : site stat look_at w st root sh abs atom c ->
  forall f, In f (inputs c) -> exists n, looked stat w c n f.
Proof.
  intros (E & _ & _ & _ & S & M & A & L & P & Q & C & _) f I. unfold inputs in I.
  assert (K : forall gp p s x, source stat w c gp p s x -> forall f, x = Some f -> exists n, looked stat w c n f).
  { intros gp p s x X f' ->. unfold source in X. destruct (generate_filename _ _ _ _ _); [| discriminate X ].
    destruct X as (f'' & [= <-] & _ & X). eauto. }
  apply in_app_or in I. destruct I as [I | I]; [ destruct I as [<- | [<- | [<- | []]]]; eauto |].
  apply in_app_or in I. destruct I as [I | I].
  { apply somes_in in I. destruct I as [I | []]. rewrite I in L. destruct (look c (B "listing_entry")); [| discriminate L ]. eapply K; eauto. }
  apply in_app_or in I. destruct I as [I | I].
  { apply somes_in in I. clear - I P K. induction P as [| p x l l' X P IH]; [ destruct I |]. destruct I as [-> | I]; eauto. }
  apply in_app_or in I. destruct I as [I | I].
  { apply somes_in in I. clear - I Q K. induction Q as [| p x l l' X Q IH]; [ destruct I |]. destruct I as [-> | I]; eauto. }
  exists (f_short f). apply (C f I).
Qed.

Lemma generate_some d gp p n e : n <> [] -> exists f, generate_filename d gp p (Some n) e = Some f.
Proof. intros N. destruct (@P_Filename.generate_spec d gp p (Some n) e) as (f & E & _); [ cbn; tauto | eauto ]. Qed.

Lemma site_shape w st root sh abs atom c : site stat look_at w st root sh abs atom c -> shape c.
Proof.
  intros (E & _ & _ & _ & _ & _ & _ & _ & P & Q & _). unfold shape. rewrite E.
  assert (K : forall gp p l l', Forall2 (source stat w c gp p) l l' -> length l = length l' /\ (~ In [] l -> ~ In None l')).
  { intros gp p l l' F. split; [ clear - F; induction F; cbn; congruence |]. intros N I. induction F as [| n x l l' X F IH]; [ destruct I |].
    destruct I as [-> | I]; [| apply IH; [ intros J; apply N; now right | exact I ] ].
    unfold source in X. destruct (@generate_some (look c (B "content_dir")) gp p n (look c (B "source_ext"))) as (f & G).
    { intros ->. apply N. now left. }
    rewrite G in X. destruct X as (? & X & _). discriminate X. }
  split; [ intros l Hl; rewrite Hl in P; eauto |]. split; [ intros l Hl; rewrite Hl in Q; eauto |].
  split; intros Hl; [ rewrite Hl in P; now inv P | rewrite Hl in Q; now inv Q ].
Qed.

Lemma shape_ok c : shape c -> (forall l, s_posts (c_st c) = Some l -> ~ In [] l) -> (forall l, s_pages (c_st c) = Some l -> ~ In [] l) ->
  Forall (fun f => f_readable f = true) (inputs c) -> site_ok c.
Proof.
  intros (P & Q & P0 & Q0) N M R. unfold site_ok. split; [ exact R |].
  split. { destruct (s_posts (c_st c)) as [l |]; [ apply (P l eq_refl); auto | rewrite P0; auto ]. }
  split. { destruct (s_pages (c_st c)) as [l |]; [ apply (Q l eq_refl); auto | rewrite Q0; auto ]. }
  split; intros l Hl; [ apply (P l Hl) | apply (Q l Hl) ].
Qed.

(* ---- bm_ctx_reload ---- *)
Lemma changed_some w f t : changed stat w f = Some t <-> stat w (f_path f) = Some t /\ ~ not_later t (f_time f).
Proof.
  unfold changed, not_later. destruct (stat w (f_path f)) as [u |]; [| split; [ discriminate | intros [X _]; discriminate X ] ].
  destruct (Z.eqb_spec (fst u) (fst (f_time f))) as [E | E].
  - destruct (Z.ltb_spec (snd (f_time f)) (snd u)) as [L | L]; split.
    + intros [= <-]. split; [ reflexivity | lia ].
    + intros [[= <-] _]. reflexivity.
    + discriminate.
    + intros [[= <-] N]. lia.
  - destruct (Z.ltb_spec (fst (f_time f)) (fst u)) as [L | L]; split.
    + intros [= <-]. split; [ reflexivity | lia ].
    + intros [[= <-] _]. reflexivity.
    + discriminate.
    + intros [[= <-] N]. lia.
Qed.
Lemma changed_none w f t : changed stat w f = None -> stat w (f_path f) = Some t -> not_later t (f_time f).
Proof.
  intros N E. destruct (Z_lt_dec (fst t) (fst (f_time f))) as [L | L]; [ left; lia |].
  destruct (Z.eq_dec (fst t) (fst (f_time f))) as [L' | L'].
  - destruct (Z_le_dec (snd t) (snd (f_time f))) as [L2 | L2]; [ right; lia |].
    assert (X : changed stat w f = Some t) by (apply changed_some; split; [ exact E | unfold not_later; lia ]). congruence.
  - assert (X : changed stat w f = Some t) by (apply changed_some; split; [ exact E | unfold not_later; lia ]). congruence.
Qed.
Lemma not_later_antisym a b : not_later a b -> not_later b a -> a = b.
Proof. destruct a, b. unfold not_later. cbn. intros. f_equal; lia. Qed.

(* one file *)
Definition file_recorded (w : W) (f : fctx) : Prop :=
  if f_readable f then exists t, stat w (f_path f) = Some t /\ not_later (f_time f) t else f_time f = (0%Z, 0%Z).
Definition file_fresh (w : W) (f : fctx) : Prop :=
  forall t, stat w (f_path f) = Some t -> after_1970 t -> f_readable f = true /\ f_time f = t.
Lemma unchanged_fresh w f : file_recorded w f -> changed stat w f = None -> file_fresh w f.
Proof.
  unfold file_recorded. intros R N t E A. pose proof (changed_none N E) as L. destruct (f_readable f).
  - destruct R as (t' & E' & L'). assert (t' = t) by congruence. subst t'. split; [ reflexivity | now apply not_later_antisym ].
  - rewrite R in L. destruct A as [A1 A2]. destruct A2. now apply not_later_antisym.
Qed.
Lemma reload_file_ok w f : file_recorded w f -> file_recorded w (reload_file stat w f) /\ file_fresh w (reload_file stat w f).
Proof.
  intros R. unfold reload_file. destruct (changed stat w f) as [t |] eqn:E; [| split; [ exact R | now apply unchanged_fresh ] ].
  apply changed_some in E. destruct E as [E _]. split.
  - unfold file_recorded. cbn. exists t. split; [ exact E | apply not_later_refl ].
  - intros t' E' _. cbn in *. split; [ reflexivity | congruence ].
Qed.

Lemma recorded_later w w' c : recorded w c -> later stat w w' -> recorded w' c.
Proof.
  intros R L f I. specialize (R f I). destruct (f_readable f); [| exact R ]. destruct R as (t & E & N).
  destruct (L _ _ E) as (t' & E' & N'). exists t'. split; [ exact E' | eapply not_later_trans; eassumption ].
Qed.

Lemma reload_spec fuel c w w' c' b : recorded w c -> shape c ->
  ctx_reload fuel (Some c) w = (w', Ok (c', b)) ->
  match c' with
  | Some c' => b = true /\ recorded w' c' /\ fresh w' c' /\ shape c' /\
      (changed stat w (c_settings c) = None -> w' = w /\ c_exec c' = c_exec c /\ c_settings c' = c_settings c) /\
      (changed stat w (c_settings c) <> None -> made w w' (f_path (c_settings c)) c')
  | None => b = false /\ changed stat w (c_settings c) <> None
  end.
Proof.
  intros R S H. unfold ctx_reload, Ctx.ctx_reload in H. destruct (changed stat w (c_settings c)) as [t |] eqn:E.
  - destruct (Ctx.ctx_new _ _ _ _ _ _ _ _ _ _ _ _ _) as [w1 r] eqn:N.
    assert (w1 = w') by (apply (f_equal fst) in H; exact H). subst w1. apply (f_equal snd) in H. cbn [snd] in H.
    destruct r as [c1 | |]; cbn [rbind] in H; try discriminate H. apply Ok_inj in H.
    assert (c1 = c') by congruence. subst c1. destruct c' as [c' |]; [| split; congruence ].
    destruct (new_made N) as [M _]. split; [ congruence |].
    pose proof M as M'. destruct M' as (abs & content & st & atom & _ & _ & _ & Si & _).
    split. { intros f I. destruct (site_inputs Si I) as [n L]. exact (looked_recorded L). }
    split. { intros f I t' Et _. destruct (site_inputs Si I) as [n L]. exact (looked_fresh L Et). }
    split; [ exact (site_shape Si) |]. split; [ discriminate | auto ].
  - assert (w = w') by (apply (f_equal fst) in H; exact H). subst w'. apply (f_equal snd) in H. cbn [snd] in H. apply Ok_inj in H.
    assert (b = true) by congruence. subst b.
    match type of H with (Some ?x, true) = _ => assert (X : c' = Some x) by congruence end. clear H. subst c'.
    split; [ reflexivity |].
    assert (K : forall f, In f (inputs (Ctx (c_exec c) (c_root c) (c_short_output c) (reload_file stat w (c_main c)) (reload_file stat w (c_atom c))
                    (c_atom_tmp c) (c_settings c) (option_map (reload_file stat w) (c_entry c)) (map (option_map (reload_file stat w)) (c_posts c))
                    (map (option_map (reload_file stat w)) (c_pages c)) (map (reload_file stat w) (c_copy c)))) ->
                 file_recorded w f /\ file_fresh w f).
    { assert (G : forall f, In f (inputs c) -> file_recorded w (reload_file stat w f) /\ file_fresh w (reload_file stat w f)).
      { intros f I. apply reload_file_ok. exact (R f I). }
      assert (O : forall l f, In f (somes (map (option_map (reload_file stat w)) l)) -> exists f', In f' (somes l) /\ f = reload_file stat w f').
      { intros l f I. apply somes_in in I. apply in_map_iff in I. destruct I as ([f' |] & X & I); [| discriminate X ].
        injection X as <-. exists f'. split; [ now apply somes_in | reflexivity ]. }
      intros f I. unfold inputs in I, G. cbn [c_settings c_main c_atom c_entry c_posts c_pages c_copy] in I.
      apply in_app_or in I. destruct I as [I | I].
      { destruct I as [<- | [<- | [<- | []]]].
        - split; [ apply R; now left | apply unchanged_fresh; [ apply R; now left | exact E ] ].
        - apply G. right. now left.
        - apply G. right. right. now left. }
      apply in_app_or in I. destruct I as [I | I].
      { destruct (O [c_entry c] f I) as (f' & I' & ->). apply G. apply in_or_app. right. apply in_or_app. now left. }
      apply in_app_or in I. destruct I as [I | I].
      { destruct (O _ f I) as (f' & I' & ->). apply G. do 2 (apply in_or_app; right). apply in_or_app. now left. }
      apply in_app_or in I. destruct I as [I | I].
      { destruct (O _ f I) as (f' & I' & ->). apply G. do 3 (apply in_or_app; right). apply in_or_app. now left. }
      apply in_map_iff in I. destruct I as (f' & <- & I). apply G. do 4 (apply in_or_app; right). exact I. }
    split; [ intros f I; apply (K f I) |]. split; [ intros f I; apply (K f I) |]. split.
    + destruct S as (P & Q & P0 & Q0). unfold shape, c_st in *. cbn [c_exec c_posts c_pages] in *.
      assert (Z : forall l : list (option fctx), In None (map (option_map (reload_file stat w)) l) -> In None l).
      { intros l I. apply in_map_iff in I. destruct I as ([f |] & X & I); [ discriminate X | exact I ]. }
      split. { intros l Hl. rewrite map_length. destruct (P l Hl) as [P1 P2]. split; [ exact P1 |]. intros N I. apply (P2 N). now apply Z. }
      split. { intros l Hl. rewrite map_length. destruct (Q l Hl) as [P1 P2]. split; [ exact P1 |]. intros N I. apply (P2 N). now apply Z. }
      split; intros Hl; [ now rewrite P0 | now rewrite Q0 ].
    + split; [ auto | congruence ].
Qed.

(* ------------------------------------------------------------------------- C71 *)

(* When blogc-make has read a blogcfile, at the start or again, what it knows is the site
   that the file describes: every source, in the order of the file, the templates, and the
   files to copy, with the times they have on the disk. *)
Theorem C71_context fuel base blogc rs w path w' c :
  ctx_new fuel base blogc rs w path = (w', Ok (Some c)) -> made w w' path c.
Proof. intros H. apply (new_made H). Qed.

(* So if all these files are there, building it brings it up to date (C67). *)
Theorem C71_site_ok fuel base blogc rs w path w' c :
  ctx_new fuel base blogc rs w path = (w', Ok (Some c)) ->
  (forall l, s_posts (c_st c) = Some l -> ~ In [] l) -> (forall l, s_pages (c_st c) = Some l -> ~ In [] l) ->
  (forall f, In f (inputs c) -> stat w' (f_path f) <> None) ->
  site_ok c.
Proof.
  intros H N M R. destruct (new_made H) as [(abs & content & st & atom & _ & _ & _ & Si & _) _].
  apply shape_ok; [ exact (site_shape Si) | exact N | exact M |]. apply Forall_forall. intros f I.
  destruct (site_inputs Si I) as [n L]. destruct (stat w' (f_path f)) as [t |] eqn:E; [ apply (looked_fresh L E) | now destruct (R f I) ].
Qed.

(* Reading the blogcfile comes to an end, whatever directories it copies, because names of
   files cannot be arbitrarily long. *)
Lemma tree_ends w root N : (forall p, N <= length p -> stat w p = None) ->
  forall fuel n l, 1 <= fuel -> N < fuel + length n -> exists l', filectx_new_r stat look_at fuel root w l n = Ok l'.
Proof.
  intros Long. induction fuel as [| fuel IH]; intros n l F L; [ lia |]. cbn [filectx_new_r]. fold (place root n).
  destruct (stat w (place root n)) as [t |] eqn:E; [| eauto ].
  assert (X : length n < N).
  { destruct (Nat.le_gt_cases N (length n)) as [X | X]; [| exact X ]. rewrite Long in E; [ discriminate E |].
    unfold place. destruct (starts_slash n); [ exact X |]. rewrite !app_length. lia. }
  destruct (look_at w (place root n)) as [| names |]; eauto. clear E. revert l. induction names as [| e r IHr]; intros l; cbn [fold_left]; eauto.
  cbn [rbind]. destruct (beq e (B ".") || beq e (B "..")); [ apply IHr |].
  destruct (IH (n ++ B "/" ++ e) l) as [l' ->]; [ lia | rewrite !app_length; change (length (B "/")) with 1; lia |]. apply IHr.
Qed.
Theorem C71_ends fuel base blogc rs w path N :
  (forall w p, N <= length p -> stat w p = None) -> N < fuel ->
  exists w' c, ctx_new fuel base blogc rs w path = (w', Ok c).
Proof.
  intros Long F.
  assert (T : forall blogc rs dev w abs st atom tmp, exists c, fill stat look_at output_env fuel blogc rs dev w abs st atom tmp = Ok c).
  { intros. unfold fill.
    assert (X : forall names l, exists l', copy_files stat look_at fuel (dirname abs) w0 l names = Ok l').
    { induction names as [| n r IH]; intros l; cbn [copy_files]; eauto.
      destruct (tree_ends (dirname abs) (Long w0) (fuel := fuel) (n := n) l) as [l' ->]; [ lia | lia |]. apply IH. }
    destruct (X (match s_copy st with Some l => l | None => [] end) []) as [l' ->]. cbn [rbind]. eauto. }
  unfold ctx_new, Ctx.ctx_new. destruct (abspath getcwd w path) as [abs |]; [| eauto ].
  destruct (contents w abs) as [content |]; [| eauto ].
  assert (P : exists r, settings_parse content = Ok r).
  { destruct (P_Settings.C45_settings_partial content) as [(e & ce & _ & P) | (cfg & sec & _ & _ & [(_ & _ & st & P & _) | (_ & e & P)])]; eauto. }
  destruct P as [[st | e] P]; rewrite P; [| eauto ].
  destruct (match lk st (B "atom_template") with
            | Some t => (w, Some (lk_str st (B "template_dir") ++ B "/" ++ t))
            | None => atom_deploy mkstemp w st end) as [w1 [atom |]]; [| eauto ].
  destruct base as [b |].
  - destruct (T (e_blogc (c_exec b)) (e_runserver (c_exec b)) (e_dev (c_exec b)) (free_internal unlink w1 b) abs st atom
               (match lk st (B "atom_template") with Some _ => false | None => true end)) as [c1 E]. rewrite E. cbn [rbind]. eauto.
  - destruct (T blogc rs false w1 abs st atom (match lk st (B "atom_template") with Some _ => false | None => true end)) as [c1 E].
    rewrite E. cbn [rbind]. eauto.
Qed.

(* ------------------------------------------------------------------------- C70 *)
Notation starts fuel := (fun w c => exists w0 base blogc rs path, ctx_new fuel base blogc rs w0 path = (w, Ok (Some c))).
Notation watching fuel := (watching stat (starts fuel) (fun build => turn build fuel)).

Lemma watching_ok fuel w c : watching fuel w c -> match c with Some c => recorded w c /\ shape c /\ rooted c | None => True end.
Proof.
  induction 1 as [w c (w0 & base & blogc & rs & path & H) | w w' c Hw IH L | build w w' c c' b Hw IH L H].
  - destruct (new_made H) as [M _]. pose proof (made_rooted M) as Ro. destruct M as (abs & content & st & atom & _ & _ & _ & Si & _).
    split; [| split; [ exact (site_shape Si) | exact Ro ] ].
    intros f I. destruct (site_inputs Si I) as [n Lk]. exact (looked_recorded Lk).
  - destruct c as [c |]; [| exact I ]. destruct IH as [R S]. split; [ eapply recorded_later; eassumption | exact S ].
  - unfold turn, Ctx.turn in H. destruct c as [c |].
    2:{ cbn in H. assert (c' = None) by congruence. now subst. }
    destruct IH as (R & S & Ro). destruct (Ctx.ctx_reload _ _ _ _ _ _ _ _ _ _) as [w1 r] eqn:E.
    destruct r as [[c1 b1] | |]; try discriminate H.
    pose proof (reload_spec R S E) as Q. destruct c1 as [c1 |].
    + destruct Q as (-> & R1 & _ & S1 & Q1 & Q2).
      assert (Ro1 : rooted c1).
      { destruct (changed stat w (c_settings c)) eqn:Ch; [ eapply made_rooted; apply Q2; discriminate |].
        destruct (Q1 eq_refl) as (_ & _ & Q3). unfold rooted. now rewrite Q3. } pose proof (L c1 w1) as Lb. destruct (build c1 w1) as [w2 x]. cbn [fst] in Lb.
      destruct x as [n | |]; try (apply (f_equal snd) in H; discriminate H).
      assert (E2 : w2 = w' /\ c' = Some c1) by (split; congruence). destruct E2 as [-> ->].
      split; [ eapply recorded_later; eassumption | split; assumption ].
    + assert (c' = None) by congruence. now subst.
Qed.

(* While blogc-make watches a site, and files do not disappear or get older: after each
   turn that succeeds, every file of the site is at least as recent as every file it
   depends on was on the disk when the turn began to build. *)
Theorem C70_watch fuel w c : watching fuel w (Some c) ->
  forall command cp w' c', turn (all_exec stat command cp) fuel (Some c) w = (w', Ok (Some c', true)) ->
  exists w1, ctx_reload fuel (Some c) w = (w1, Ok (Some c', true)) /\
  forall answer good, steady command cp good c' answer -> physical stat command cp good c' answer -> answers command good c' answer -> good w1 ->
  (forall l, s_posts (c_st c') = Some l -> ~ In [] l) -> (forall l, s_pages (c_st c') = Some l -> ~ In [] l) ->
  (forall f, In f (inputs c') -> exists t, stat w1 (f_path f) = Some t /\ after_1970 t) ->
  forall rule n d, product c' answer rule n d ->
  exists out, stat w' (absolute c' n) = Some out /\ forall f t, In f d -> stat w1 (f_path f) = Some t -> not_later t out.
Proof.
  intros Hw command cp w' c' H. destruct (watching_ok Hw) as (R & S & _). unfold turn, Ctx.turn in H.
  destruct (Ctx.ctx_reload _ _ _ _ _ _ _ _ _ _) as [w1 r] eqn:E.
  destruct r as [[c1 b1] | |]; try discriminate H.
  pose proof (reload_spec R S E) as Q. destruct c1 as [c1 |]; [| discriminate H ].
  destruct Q as (-> & R1 & Fr & S1 & _). destruct (all_exec stat command cp c1 w1) as [w2 x] eqn:A.
  destruct x as [n | |]; try (apply (f_equal snd) in H; discriminate H).
  assert (E2 : w2 = w' /\ c1 = c' /\ n = 0).
  { split; [ congruence |]. split; [ congruence |]. apply (f_equal snd) in H. cbn [snd] in H. apply Ok_inj in H.
    destruct n; [ reflexivity |]. apply (f_equal snd) in H. discriminate H. }
  destruct E2 as (-> & -> & ->). exists w1. split; [ reflexivity |].
  intros answer good K P An Hg N M Pr rule n d Hp.
  assert (Rd : Forall (fun f => f_readable f = true) (inputs c')).
  { apply Forall_forall. intros f I. destruct (Pr f I) as (t & Et & Pt). apply (Fr f I t Et Pt). }
  destruct (proj2 (C67_up_to_date K P (shape_ok S1 N M Rd) An Hg A) _ _ _ Hp) as (out & Eo & F). exists out. split; [ exact Eo |].
  intros f t I Et. pose proof (product_inputs Hp I) as J. destruct (Pr f J) as (t' & Et' & Pt).
  assert (t' = t) by congruence. subst t'. destruct (Fr f J t Et Pt) as [_ <-]. auto.
Qed.

(* ------------------------------------------------------------------------- C50 *)
(* A blogcfile that was changed and is valid is taken over. Missing: that this also happens
   after a blogcfile that was not valid, see C50_stuck. *)
Theorem C50_reload_partial fuel w c N content st :
  watching fuel w (Some c) -> (forall w p, N <= length p -> stat w p = None) -> N < fuel ->
  (exists t, stat w (f_path (c_settings c)) = Some t /\ ~ not_later t (f_time (c_settings c))) ->
  contents w (f_path (c_settings c)) = Some content -> settings_parse content = Ok (inl st) ->
  (trie_lookup (s_settings st) (B "atom_template") = None ->
   trie_lookup (s_settings st) (B "atom_legacy_entry_id") = None /\ snd (mkstemp w st) <> None) ->
  exists w' c', ctx_reload fuel (Some c) w = (w', Ok (Some c', true)) /\ c_st c' = st /\
    made w w' (f_path (c_settings c)) c' /\ e_dev (c_exec c') = e_dev (c_exec c).
Proof.
  intros Hw Long F (t & Et & Lt) C P At. destruct (watching_ok Hw) as (R & S & Ro).
  assert (Ch : changed stat w (c_settings c) = Some t) by (apply changed_some; auto).
  destruct (@C71_ends fuel (Some c) [] [] w (f_path (c_settings c)) N Long F) as (w' & c' & E).
  assert (X : exists c1, c' = Some c1 /\ c_st c1 = st).
  { unfold ctx_new, Ctx.ctx_new in E. unfold abspath in E. unfold rooted in Ro. rewrite Ro, C, P in E.
    assert (A : exists w1 atom, match lk st (B "atom_template") with
              | Some t => (w, Some (lk_str st (B "template_dir") ++ B "/" ++ t))
              | None => atom_deploy mkstemp w st end = (w1, Some atom)).
    { unfold lk, atom_deploy. destruct (trie_lookup (s_settings st) (B "atom_template")); [ eauto |].
      destruct (At eq_refl) as [-> M]. destruct (mkstemp w st) as [w1 [atom |]]; [ eauto | now destruct M ]. }
    destruct A as (w1 & atom & A). rewrite A in E. apply (f_equal snd) in E. cbn [snd] in E.
    revert E. match goal with |- (do c <- ?f ; _) = _ -> _ => destruct f as [c1 | |] eqn:G end; cbn [rbind]; intros E; try discriminate E.
    apply Ok_inj in E. exists c1. split; [ now symmetry |]. destruct (fill_site G) as [Si _]. apply Si. }
  destruct X as (c1 & -> & Sx). destruct (new_made E) as [M (_ & _ & D)].
  exists w', c1. split; [| split; [ exact Sx | split; [ exact M | exact D ] ] ].
  unfold ctx_reload, Ctx.ctx_reload. rewrite Ch, E. reflexivity.
Qed.

(* But when a changed blogcfile is not valid, the site is lost: nothing is built any more,
   however the files change. *)
Theorem C50_stuck fuel w c content e :
  watching fuel w (Some c) ->
  (exists t, stat w (f_path (c_settings c)) = Some t /\ ~ not_later t (f_time (c_settings c))) ->
  contents w (f_path (c_settings c)) = Some content -> settings_parse content = Ok (inr e) ->
  ctx_reload fuel (Some c) w = (w, Ok (None, false)) /\
  forall w' build w'' c' b, turn build fuel None w' = (w'', Ok (c', b)) -> c' = None /\ b = false.
Proof.
  intros Hw (t & Et & Lt) C P. destruct (watching_ok Hw) as (R & S & Ro).
  assert (Ch : changed stat w (c_settings c) = Some t) by (apply changed_some; auto).
  split; [| intros w' build w'' c' b H; cbn in H; split; congruence ].
  unfold ctx_reload, Ctx.ctx_reload. rewrite Ch. unfold Ctx.ctx_new, abspath. unfold rooted in Ro. rewrite Ro, C, P. reflexivity.
Qed.
End Facts.
Print Assumptions C71_context.
Print Assumptions C71_site_ok.
Print Assumptions C71_ends.
Print Assumptions C70_watch.
Print Assumptions C50_reload_partial.
Print Assumptions C50_stuck.

(* ---- a site on a small disk ---- *)
(* files with a time and contents, and directories with a time and names *)
Record disk : Type := Disk { d_files : list (bytes * ((Z * Z) * (bytes + list bytes))) }.
Definition d_get (w : disk) (p : bytes) : option ((Z * Z) * (bytes + list bytes)) :=
  match find (fun x => beq (fst x) p) (d_files w) with Some x => Some (snd x) | None => None end.
Definition d_stat (w : disk) (p : bytes) : option (Z * Z) := match d_get w p with Some (t, _) => Some t | None => None end.
Definition d_look (w : disk) (p : bytes) : node := match d_get w p with Some (_, inr names) => Folder names | _ => File end.
Definition d_contents (w : disk) (p : bytes) : option bytes := match d_get w p with Some (_, inl s) => Some s | _ => None end.
Definition d_put (w : disk) (p : bytes) (x : (Z * Z) * (bytes + list bytes)) : disk :=
  Disk ((p, x) :: filter (fun x => negb (beq (fst x) p)) (d_files w)).
Definition d_mkstemp (w : disk) (st : settings) : disk * option bytes :=
  (d_put w (B "/tmp/blogc-make_0") ((50, 0)%Z, inl (B "feed")), Some (B "/tmp/blogc-make_0")).
Definition d_unlink (w : disk) (p : bytes) : disk := Disk (filter (fun x => negb (beq (fst x) p)) (d_files w)).

Lemma d_get_put w p x q : d_get (d_put w p x) q = if beq p q then Some x else d_get w q.
Proof.
  unfold d_get, d_put. cbn [d_files find fst]. destruct (beq p q) eqn:E; [ reflexivity |]. apply beq_neq in E.
  induction (d_files w) as [| [r y] l IH]; [ reflexivity |]. cbn [filter find fst].
  destruct (beq r p) eqn:F; cbn [negb].
  - apply beq_eq in F. subst r. destruct (beq p q) eqn:G; [ apply beq_eq in G; contradiction | exact IH ].
  - cbn [find fst]. destruct (beq r q); [ reflexivity | exact IH ].
Qed.
Lemma d_put_later w p t x : (forall t0, d_stat w p = Some t0 -> not_later t0 t) -> later d_stat w (d_put w p (t, x)).
Proof.
  intros H q t0 E. unfold d_stat in *. rewrite d_get_put. destruct (beq p q) eqn:F.
  - apply beq_eq in F. subst q. exists t. split; [ reflexivity | now apply H ].
  - exists t0. split; [ exact E | apply not_later_refl ].
Qed.

Definition d_blogcfile : bytes := P_Settings.ex_head ++ B "[posts]
one
[copy]
static
".
Definition d_site : disk := Disk
  [ (B "/s/blogcfile", ((10, 0)%Z, inl d_blogcfile)); (B "/s/templates/main.tmpl", ((11, 0)%Z, inl (B "m")));
    (B "/s/content/post/one.txt", ((12, 0)%Z, inl (B "one"))); (B "/s/static", ((13, 0)%Z, inr [B "."; B ".."; B "a"; B "sub"]));
    (B "/s/static/a", ((14, 0)%Z, inl (B "a"))); (B "/s/static/sub", ((15, 0)%Z, inr [B ".."; B "."; B "b"]));
    (B "/s/static/sub/b", ((16, 7)%Z, inl (B "b"))) ].
Notation d_new := (ctx_new d_stat d_look d_contents (fun _ => Some (B "/s")) d_mkstemp d_unlink None 20).
Notation d_reload := (ctx_reload d_stat d_look d_contents (fun _ => Some (B "/s")) d_mkstemp d_unlink None 20).
Definition d_ctx (w : disk) : option ctx := match snd (d_new None (B "blogc") (B "rs") w (B "blogcfile")) with Ok c => c | _ => None end.

Definition summary (c : ctx) := (c_root c, e_output_dir (c_exec c), map (option_map (fun f => (f_path f, f_slug f, f_time f, f_readable f))) (c_posts c),
  map (fun f => (f_path f, f_short f, f_time f)) (c_copy c), (f_path (c_atom c), c_atom_tmp c, f_time (c_atom c)), (f_path (c_settings c), f_time (c_settings c))).
Example C71_ex : option_map summary (d_ctx d_site) = Some
  (B "/s", B "/s/_build", [Some (B "/s/content/post/one.txt", Some (B "one"), (12, 0)%Z, true)],
   [(B "/s/static/a", B "static/a", (14, 0)%Z); (B "/s/static/sub/b", B "static/sub/b", (16, 7)%Z)],
   (B "/tmp/blogc-make_0", true, (50, 0)%Z), (B "/s/blogcfile", (10, 0)%Z)).
Proof. vm_compute. reflexivity. Qed.

(* a post is written again *)
Definition reloaded (change : disk -> disk) (w : disk) : option ctx * bool :=
  match snd (d_reload (d_ctx w) (change w)) with Ok r => r | _ => (None, false) end.
Example C70_ex : option_map (fun c => map (option_map f_time) (c_posts c)) (fst (reloaded (fun w => d_put w (B "/s/content/post/one.txt") ((90, 1)%Z, inl (B "new"))) d_site))
  = Some [Some (90, 1)%Z].
Proof. vm_compute. reflexivity. Qed.

(* Without the condition on times: a post replaced by an older file is not noticed, so the
   context still says what it said before. *)
Theorem C70_older_refuted : exists w w' c t, d_ctx w = Some c /\
  d_stat w' (B "/s/content/post/one.txt") = Some t /\ d_contents w' (B "/s/content/post/one.txt") <> d_contents w (B "/s/content/post/one.txt") /\
  snd (d_reload (Some c) w') = Ok (Some c, true).
Proof.
  exists d_site, (d_put d_site (B "/s/content/post/one.txt") ((5, 0)%Z, inl (B "older"))).
  destruct (d_ctx d_site) as [c |] eqn:E; [| vm_compute in E; discriminate E ]. exists c. eexists.
  split; [ reflexivity |]. split; [ vm_compute; reflexivity |]. split; [ vm_compute; discriminate |].
  vm_compute in E. injection E as <-. vm_compute. reflexivity.
Qed.
Print Assumptions C70_older_refuted.

(* A file added to a directory that is copied is not noticed either, until the blogcfile
   itself changes: a site that is looked at anew has it. *)
Theorem C70_added_refuted : exists w w' c c', d_ctx w = Some c /\ later d_stat w w' /\
  snd (d_reload (Some c) w') = Ok (Some c', true) /\
  exists c2 f, d_ctx w' = Some c2 /\ In f (c_copy c2) /\ ~ In (f_short f) (map f_short (c_copy c')).
Proof.
  exists d_site, (d_put (d_put d_site (B "/s/static/c") ((60, 0)%Z, inl (B "c"))) (B "/s/static") ((60, 0)%Z, inr [B "a"; B "c"; B "sub"])).
  destruct (d_ctx d_site) as [c |] eqn:E; [| vm_compute in E; discriminate E ]. exists c. exists c.
  split; [ reflexivity |]. split.
  - eapply later_trans; apply d_put_later; intros t H; vm_compute in H; [ discriminate H |]. injection H as <-. left. reflexivity.
  - split; [ vm_compute in E; injection E as <-; vm_compute; reflexivity |].
    match goal with |- exists c2 f, d_ctx ?w = _ /\ _ => destruct (d_ctx w) as [c2 |] eqn:E2; [| vm_compute in E2; discriminate E2 ] end.
    exists c2. vm_compute in E, E2. injection E as <-. injection E2 as <-.
    match goal with |- exists f, _ /\ In f (c_copy (Ctx _ _ _ _ _ _ _ _ _ _ [_; ?x; _])) /\ _ => exists x end.
    split; [ reflexivity |]. split; [ right; left; reflexivity |]. vm_compute. intuition discriminate.
Qed.
Print Assumptions C70_added_refuted.

(* The full C50 is false: the blogcfile is valid, then broken, then as it was at first, each
   time with a later time, and blogc-make does not come back. *)
Definition d_build (c : ctx) (w : disk) : disk * res nat := (w, Ok 0).
Notation d_turn := (turn d_stat d_look d_contents (fun _ => Some (B "/s")) d_mkstemp d_unlink None d_build 20).
Theorem C50_refuted : exists w1 w2 w3 c,
  d_ctx w1 = Some c /\ later d_stat w1 w2 /\ later d_stat w2 w3 /\
  d_contents w3 (B "/s/blogcfile") = d_contents w1 (B "/s/blogcfile") /\ d_stat w3 (B "/s/blogcfile") <> d_stat w2 (B "/s/blogcfile") /\
  (exists c', d_turn (Some c) w1 = (w1, Ok (Some c', true))) /\
  d_turn (Some c) w2 = (w2, Ok (None, false)) /\ d_turn None w3 = (w3, Ok (None, false)) /\
  exists c3, d_ctx w3 = Some c3.
Proof.
  set (w2 := d_put d_site (B "/s/blogcfile") ((70, 0)%Z, inl (B "oops"))).
  exists d_site, w2, (d_put w2 (B "/s/blogcfile") ((80, 0)%Z, inl d_blogcfile)).
  destruct (d_ctx d_site) as [c |] eqn:E; [| vm_compute in E; discriminate E ]. exists c.
  split; [ reflexivity |].
  split; [ apply d_put_later; intros t H; vm_compute in H; injection H as <-; left; reflexivity |].
  split; [ apply d_put_later; intros t H; vm_compute in H; injection H as <-; left; reflexivity |].
  split; [ vm_compute; reflexivity |]. split; [ vm_compute; discriminate |].
  vm_compute in E. injection E as <-.
  split; [ eexists; vm_compute; reflexivity |]. split; [ vm_compute; reflexivity |]. split; [ vm_compute; reflexivity |].
  match goal with |- exists c3, d_ctx ?w = _ => destruct (d_ctx w) as [c2 |] eqn:E2; [ eauto | vm_compute in E2; discriminate E2 ] end.
Qed.
Print Assumptions C50_refuted.
