(* What the words used in other statements mean, without the functions of the model:
   the names of variables (C20), how texts begin and end (C13); and the pushes and
   rebuilds that the hook refuses (C84). *)
From Coq Require Import NArith Lia.
From Verif Require Import Base Utils Template TemplateSpec Effects Receiver Deploy BlogcCmd ReceiverMain P_ReceiverMain.
#[local] Open Scope nat_scope.
#[local] Arguments B : simpl never.

Definition capitals : bytes := B "ABCDEFGHIJKLMNOPQRSTUVWXYZ".
Definition name_bytes : bytes := B "ABCDEFGHIJKLMNOPQRSTUVWXYZ0123456789_".

Lemma in_bool (l : bytes) c : existsb (Ascii.eqb c) l = true <-> In c l.
Proof.
  rewrite existsb_exists. split; [intros (x & I & E); apply Ascii.eqb_eq in E; subst; exact I|].
  intro I. exists c. split; [exact I|apply Ascii.eqb_refl].
Qed.
Lemma same_bytes (f : ascii -> bool) l :
  (forall c, Bool.eqb (f c) (existsb (Ascii.eqb c) l) = true) -> forall c, f c = true <-> In c l.
Proof. intros H c. rewrite <- in_bool. specialize (H c). apply Bool.eqb_prop in H. rewrite H. reflexivity. Qed.

(* the names of C20 are a capital letter, then capital letters, digits and underscores *)
Theorem C20_names : forall v, name_ok v <-> exists c r, v = c :: r /\ In c capitals /\ Forall (fun x => In x name_bytes) r.
Proof.
  assert (U : forall c, is_upper c = true <-> In c capitals).
  { apply same_bytes. apply (@forall_bytes (fun c => Bool.eqb (is_upper c) (existsb (Ascii.eqb c) capitals))). vm_compute. reflexivity. }
  assert (V : forall c, var_char c = true <-> In c name_bytes).
  { apply same_bytes. apply (@forall_bytes (fun c => Bool.eqb (var_char c) (existsb (Ascii.eqb c) name_bytes))). vm_compute. reflexivity. }
  intros [|c r]; cbn [name_ok].
  - split; [contradiction|]. intros (c & r & E & _). discriminate.
  - rewrite U, forallb_forall. split.
    + intros (H1 & H2). exists c, r. split; [reflexivity|]. split; [exact H1|]. apply Forall_forall. intros x I. apply V, H2, I.
    + intros (c' & r' & E & H1 & H2). injection E as -> ->. split; [exact H1|]. rewrite Forall_forall in H2. intros x I. apply V, H2, I.
Qed.
Print Assumptions C20_names.
Example C20_names_example : name_ok (B "POST_2") /\ ~ name_ok (B "2POST") /\ ~ name_ok (B "Post").
Proof. split; [vm_compute; auto|]. split; vm_compute; intuition discriminate. Qed.

(* bc_str_starts_with and bc_str_ends_with *)
Theorem C13_affixes : forall s x, (starts_with s x = true <-> exists r, s = x ++ r) /\ (ends_with s x = true <-> exists r, s = r ++ x).
Proof.
  intros s x. split.
  - revert s. induction x as [|a x IH]; intro s; cbn [starts_with].
    + split; [intros _; exists s; reflexivity|intros _; destruct s; reflexivity].
    + destruct s as [|b s].
      * cbn [starts_with]. split; [discriminate|]. intros (r & E). discriminate.
      * cbn [starts_with]. rewrite andb_true_iff, IH, eqb_true. split.
        -- intros (-> & r & ->). exists r. reflexivity.
        -- intros (r & E). injection E as -> ->. split; [reflexivity|]. exists r. reflexivity.
  - unfold ends_with. destruct (Nat.ltb_spec (length s) (length x)) as [L|L].
    + split; [discriminate|]. intros (r & ->). rewrite app_length in L. lia.
    + rewrite beq_eq. split.
      * intro E. exists (firstn (length s - length x) s). rewrite <- E at 2. rewrite firstn_skipn. reflexivity.
      * intros (r & ->). rewrite app_length. replace (length r + length x - length x) with (length r) by lia.
        rewrite skipn_app, skipn_all, Nat.sub_diag. reflexivity.
Qed.
Print Assumptions C13_affixes.
Example C13_affixes_example : starts_with (B "repo:blog") (B "repo:") = true /\ ends_with (B "a.html") (B ".html") = true /\ ends_with (B "html") (B ".html") = false.
Proof. repeat split; reflexivity. Qed.

(* a repository that cannot be entered, or a rebuild of an unknown commit, ends with status 1 *)
Theorem C84_fails : forall e argv0 tmp epoch old,
  (forall hooks, r_real e (dirname argv0) = Some hooks -> r_enter e (dirname hooks) = true ->
     r_git_dir e = false /\
     (forall dir, r_real e (site_link e (dirname hooks)) = Some dir -> r_readable e (site_link e (dirname hooks)) = true -> ~ In "-"%char (basename dir))) ->
  pre_receive e argv0 tmp epoch old = Ok (Ret 1).
Proof.
  intros e argv0 tmp epoch old H. unfold pre_receive, hook_plan.
  destruct (r_real e (dirname argv0)) as [hooks|]; [|reflexivity].
  destruct (r_enter e (dirname hooks)) eqn:En; [|reflexivity].
  destruct (H _ eq_refl En) as (Hg & Hd). rewrite Hg.
  destruct (r_readable e (site_link e (dirname hooks))) eqn:Er.
  - destruct (r_real e (site_link e (dirname hooks))) as [dir|] eqn:Ed.
    + rewrite (@C84_unknown e _ _ Ed (Hd _ eq_refl eq_refl)). reflexivity.
    + unfold last_ref. rewrite Er, Ed. reflexivity.
  - unfold last_ref. rewrite Er. reflexivity.
Qed.
Print Assumptions C84_fails.
Example C84_fails_example :
  pre_receive (ex_env false (ConfigSpec.doc_text ex_ini) [] (Some (B "/srv/www/html"))) (B "hooks/pre-receive") (B "/tmp/blogc_a") 7 [] = Ok (Ret 1).
Proof. vm_compute. reflexivity. Qed.
