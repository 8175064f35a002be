(* The settings of blogc-git-receiver, its hooks and its main function (C81-C85). *)
From Coq Require Import NArith Lia.
From Verif Require Import Base Utils Config P_Config TrieProofs ConfigSpec ConfigProofs Effects ShSpec Receiver ReceiverSpec ReceiverProofs P_Receiver Deploy BlogcCmd ReceiverMain ReceiverMainSpec.
From Verif Require Content.
#[local] Open Scope nat_scope.
#[local] Arguments B : simpl never.

(* ---------- settings ---------- *)
Lemma base_dir_is e bd : base_is (r_base e) (r_home e) bd <-> base_dir e = Some bd.
Proof. unfold base_is, base_dir. destruct (r_base e); intuition congruence. Qed.
Lemma builds_dir_is e b : builds_is (r_builds e) (r_base e) (r_home e) b <-> builds_dir e = Ok b.
Proof.
  unfold builds_is, builds_dir. destruct (r_builds e) as [x|]; [split; [intros [H|[H _]]; congruence|intro H; left; congruence]|]. split.
  - intros [H|(_ & bd & H & ->)]; [discriminate|]. apply base_dir_is in H. rewrite H. reflexivity.
  - intro H. right. split; [reflexivity|]. destruct (base_dir e) as [bd|] eqn:E; [|discriminate]. exists bd. split; [apply base_dir_is; exact E|congruence].
Qed.
Lemma starts_repo s : beq (firstn 5 s) (B "repo:") = true <-> exists n, s = B "repo:" ++ n.
Proof.
  split.
  - intro H. apply beq_eq in H. exists (skipn 5 s). rewrite <- H. symmetry. apply firstn_skipn.
  - intros (n & ->). reflexivity.
Qed.
Lemma is_section_of e bd repo d s : In s (map fst (d_secs d)) ->
  is_section e bd repo s = true <-> exists n, s = B "repo:" ++ n /\ section_of (r_real e) bd d repo n.
Proof.
  intro I. unfold is_section, section_of. rewrite andb_true_iff, starts_repo. split.
  - intros ((n & ->) & H). exists n. split; [reflexivity|]. split; [exact I|]. change (skipn 5 (B "repo:" ++ n)) with n in H.
    destruct (r_real e _) as [r|]; [|discriminate]. apply beq_eq in H. congruence.
  - intros (n & -> & _ & H). split; [exists n; reflexivity|]. change (skipn 5 (B "repo:" ++ n)) with n. rewrite H. apply beq_refl.
Qed.

Section Settings.
Variables (e : renv) (bd : bytes) (d : doc) (repo : bytes).
Hypothesis base : base_dir e = Some bd.
Hypothesis text : r_contents e (bd ++ B "/blogc-git-receiver.ini") = Some (doc_text d).
Hypothesis written : doc_ok [] d.

Lemma parsed : exists cfg, settings_parse e = Some cfg /\
  (forall n, In n (config_list_sections cfg) <-> In n (map fst (d_secs d))) /\
  (forall sec k, no_nul sec -> no_nul k -> config_get cfg sec k = match doc_section d sec with Some body => last_value (keys_of body) k | None => None end).
Proof.
  destruct (C16_config_means written) as (cfg & H1 & (_ & H2) & H3). exists cfg. unfold settings_parse. rewrite base, text, H1.
  split; [reflexivity|]. split; [exact H2|]. intros sec k Hs Hk. specialize (H3 _ Hs). destruct (doc_section d sec) as [body|].
  - destruct H3 as [_ H3]. destruct (H3 (fun x => x)) as (_ & H & _). auto.
  - apply H3.
Qed.
Lemma section_nul n : In n (map fst (d_secs d)) -> no_nul n.
Proof.
  intro I. apply in_map_iff in I. destruct I as (s & <- & I). destruct written as [_ H]. rewrite Forall_forall in H. specialize (H _ I).
  destruct H as ((_ & H) & _). intro K. rewrite Forall_forall in H. apply (H _ K). right. left. reflexivity.
Qed.
Lemma found k n : no_nul k -> section_of (r_real e) bd d repo n ->
  (forall m, section_of (r_real e) bd d repo m -> m = n) -> setting_of e repo k = setting d n k.
Proof.
  intros Hk Hn U. destruct parsed as (cfg & H1 & H2 & H3). unfold setting_of, get_section. rewrite H1, base.
  destruct (find _ _) as [s|] eqn:E.
  - apply find_some in E. destruct E as [I E]. apply H2 in I. apply (is_section_of _ _ _ I) in E. destruct E as (m & -> & Hm).
    apply U in Hm as Em. subst m. unfold setting. apply H3; [|exact Hk]. apply section_nul. exact I.
  - exfalso. destruct Hn as [I Hr]. pose proof (find_none _ _ E (B "repo:" ++ n) (proj2 (H2 _) I)) as K.
    assert (is_section e bd repo (B "repo:" ++ n) = true) by (apply (is_section_of _ _ _ I); exists n; split; [reflexivity|split; assumption]). congruence.
Qed.
Lemma not_found k : (forall n, ~ section_of (r_real e) bd d repo n) -> setting_of e repo k = None.
Proof.
  intro N. destruct parsed as (cfg & H1 & H2 & _). unfold setting_of, get_section. rewrite H1, base.
  destruct (find _ _) as [s|] eqn:E; [|reflexivity]. exfalso. apply find_some in E. destruct E as [I E]. apply H2 in I.
  apply (is_section_of _ _ _ I) in E. destruct E as (m & _ & Hm). exact (N _ Hm).
Qed.
End Settings.

(* C81. The link of the site is where the settings for the repository say, seen from
   the repository, and [htdocs] in the repository if they say nothing. *)
Theorem C81_place : forall e bd d repo argv0 hooks sym ref, base_is (r_base e) (r_home e) bd ->
  r_contents e (bd ++ B "/blogc-git-receiver.ini") = Some (doc_text d) -> doc_ok [] d ->
  r_real e (dirname argv0) = Some hooks -> repo = dirname hooks ->
  hook_plan e argv0 = Go sym ref ->
  (forall n, section_of (r_real e) bd d repo n -> (forall m, section_of (r_real e) bd d repo m -> m = n) ->
     (forall v, setting d n (B "symlink") = Some v -> v <> [] -> sym = seen_from repo v) /\
     (setting d n (B "symlink") = None -> sym = repo ++ B "/htdocs")) /\
  ((forall n, ~ section_of (r_real e) bd d repo n) -> sym = repo ++ B "/htdocs").
Proof.
  intros e bd d repo argv0 hooks sym ref Hb Ht Hd Hr -> Hp. apply base_dir_is in Hb. unfold hook_plan in Hp. rewrite Hr in Hp.
  assert (sym = site_link e (dirname hooks)) as ->.
  { destruct (r_enter e _); [|discriminate]. destruct (r_git_dir e); [destruct (hook_ref _)|destruct (last_ref _ _)]; congruence. }
  clear Hp. unfold site_link. split.
  - intros n Hn U. assert (no_nul (B "symlink")) as Hk by (intro I; vm_compute in I; intuition discriminate).
    rewrite (found Hb Ht Hd Hk Hn U). split.
    + intros v -> Hv. destruct v as [|c v]; [contradiction|]. unfold seen_from. cbn [firstn]. change (beq [c] (B "/")) with (Ascii.eqb c "/" && true).
      destruct (Ascii.eqb c "/"); reflexivity.
    + intros ->. reflexivity.
  - intro N. rewrite (not_found Hb Ht Hd _ N). reflexivity.
Qed.
Print Assumptions C81_place.

(* without settings, or with settings that contain an error anywhere, it is [htdocs] *)
Theorem C81_default : forall e argv0 hooks sym ref, settings_parse e = None ->
  r_real e (dirname argv0) = Some hooks -> hook_plan e argv0 = Go sym ref -> sym = dirname hooks ++ B "/htdocs".
Proof.
  intros e argv0 hooks sym ref Hs Hr Hp. unfold hook_plan in Hp. rewrite Hr in Hp. unfold site_link, setting_of in Hp. rewrite Hs in Hp.
  destruct (r_enter e _); [|discriminate]. destruct (r_git_dir e); [destruct (hook_ref _)|destruct (last_ref _ _)]; congruence.
Qed.
Print Assumptions C81_default.

(* A push of other branches only is accepted, and nothing is deployed. *)
Theorem C81_other : forall e argv0 hooks l rest tmp epoch old, r_git_dir e = true -> r_real e (dirname argv0) = Some hooks -> r_enter e (dirname hooks) = true ->
  r_stdin e = flat_map update_src l ++ rest -> Forall update_ok l -> ~ In LF rest ->
  (forall u, In u l -> u_ref u <> B "refs/heads/master" /\ u_ref u <> B "refs/heads/main") ->
  pre_receive e argv0 tmp epoch old = Ok (Ret 0).
Proof.
  intros e argv0 hooks l rest tmp epoch old Hg Hr He Hs Hl Hn Hb.
  assert (P : forall b, b = B "master" \/ b = B "main" -> pushed l b = None).
  { intros b Eb. clear - Hb Eb. induction l as [|u l IH]; [reflexivity|]. cbn [pushed]. rewrite IH by (intros v Hv; apply Hb; right; exact Hv).
    destruct (list_eq_dec _ _ _) as [E|E]; [|reflexivity]. destruct (Hb u (or_introl eq_refl)) as [H1 H2]. destruct Eb as [-> | ->]; [destruct (H1 E)|destruct (H2 E)]. }
  unfold pre_receive, hook_plan. rewrite Hr, He, Hg, Hs, C39_deployed by assumption. rewrite !P by auto. reflexivity.
Qed.
Print Assumptions C81_other.

Definition ex_env (git : bool) (ini input : bytes) (site : option bytes) : renv :=
  Renv None None (Some (B "/home/git")) git input
    (fun p => if beq p (B "hooks") then Some (B "/srv/git/blog.git/hooks")
              else if beq p (B "/home/git/repos/blog.git") then Some (B "/srv/git/blog.git")
              else if beq p (B "/srv/www/blog") then site else None)
    (fun _ => true) (fun _ => true)
    (fun p => if beq p (B "/home/git/blogc-git-receiver.ini") then Some ini else None).
Definition ex_ini : doc :=
  Doc [] [(B "repo:blog.git", [ConfigSpec.Blank [LF]; Key (B "symlink") [] (ConfigSpec.Quoted [] (map Lit (B "/srv/www/blog")) []) LF;
                               Key (B "mirror") [] (ConfigSpec.Quoted [] (map Lit (B "git@host:blog.git")) []) LF])].
Definition ex_push : bytes := B "00 abc1 refs/heads/main" ++ [LF].
Lemma ex_ok : doc_ok [] ex_ini.
Proof.
  assert (Hkl : forall (k : bytes) c, ~ In c hblanks -> forall r c', k ++ [c] = r ++ [c'] -> ~ In c' hblanks).
  { intros k c H r c' E. apply app_inj_tail in E. destruct E as [_ <-]. exact H. }
  split; [constructor|]. constructor; [|constructor]. cbn [fst snd]. split; [split; [discriminate|bytes_ok]|]. split; [intros []|]. intros _.
  constructor; [cbn [map_line_ok]; bytes_ok|]. constructor; [|constructor; [|constructor]]; cbn [map_line_ok value_ok].
  - split; [|bytes_ok]. split; [apply no_nulb_spec; reflexivity|]. split; [bytes_ok|].
    split; [exists "s"%char, (B "ymlink"); split; [reflexivity|bytes_ok]|]. split; [|bytes_ok]. apply (Hkl (B "symlin") "k"%char). bytes_ok.
  - split; [|bytes_ok]. split; [apply no_nulb_spec; reflexivity|]. split; [bytes_ok|].
    split; [exists "m"%char, (B "irror"); split; [reflexivity|bytes_ok]|]. split; [|bytes_ok]. apply (Hkl (B "mirro") "r"%char). bytes_ok.
Qed.
Example C81_ex : hook_plan (ex_env true (doc_text ex_ini) ex_push None) (B "hooks/pre-receive") = Go (B "/srv/www/blog") (B "abc1")
  /\ section_of (r_real (ex_env true (doc_text ex_ini) ex_push None)) (B "/home/git") ex_ini (B "/srv/git/blog.git") (B "blog.git")
  /\ setting ex_ini (B "blog.git") (B "symlink") = Some (B "/srv/www/blog").
Proof. vm_compute. auto. Qed.

Example C81_other_ex : exists u, u_ref u = B "refs/heads/dev" /\ update_ok u /\ forall tmp epoch old,
  pre_receive (ex_env true (doc_text ex_ini) (flat_map update_src [u]) None) (B "hooks/pre-receive") tmp epoch old = Ok (Ret 0).
Proof.
  exists (Update (B "0") (B "abc") (B "refs/heads/dev")). split; [reflexivity|].
  assert (T : forall s, s <> [] -> forallb (fun c => negb (c == SP) && negb (c == LF) && negb (c == NUL)) s = true -> token s).
  { intros s Hs H. split; [exact Hs|]. rewrite forallb_forall in H. apply Forall_forall. intros c Hc. specialize (H c Hc).
    rewrite !andb_true_iff, !negb_true_iff, !eqb_false in H. tauto. }
  assert (U : update_ok (Update (B "0") (B "abc") (B "refs/heads/dev"))) by (split; [|split]; apply T; discriminate || reflexivity).
  split; [exact U|]. intros tmp epoch old. eapply (@C81_other _ _ _ [Update (B "0") (B "abc") (B "refs/heads/dev")] []); try reflexivity; [auto|intros []|].
  intros u [<-|[]]. split; discriminate.
Qed.

(* So an error in the settings of another repository moves the site elsewhere, and
   the hook goes on. *)
Theorem C81_error_refuted : exists e argv0 ref d bad, doc_ok [] d /\
  r_contents e (B "/home/git/blogc-git-receiver.ini") = Some (doc_text d ++ bad) /\
  section_of (r_real e) (B "/home/git") d (B "/srv/git/blog.git") (B "blog.git") /\
  setting d (B "blog.git") (B "symlink") = Some (B "/srv/www/blog") /\
  hook_plan e argv0 = Go (B "/srv/git/blog.git/htdocs") ref.
Proof.
  exists (ex_env true (doc_text ex_ini ++ B "[repo:other.git]" ++ [LF] ++ B "mirror" ++ [LF]) ex_push None), (B "hooks/pre-receive"), (B "abc1"), ex_ini, (B "[repo:other.git]" ++ [LF] ++ B "mirror" ++ [LF]).
  split; [exact ex_ok|]. vm_compute. auto.
Qed.
Print Assumptions C81_error_refuted.

(* ---------- names of programs ---------- *)
Lemma skip_split s : exists sl, s = sl ++ skip_slashes s /\ Forall (eq "/"%char) sl.
Proof.
  induction s as [|c s (sl & E & H)]; [exists []; split; [reflexivity|constructor]|]. cbn [skip_slashes]. destruct (c == "/"%char) eqn:Ec.
  - apply eqb_true in Ec. subst c. exists ("/"%char :: sl). split; [cbn [app]; congruence|constructor; auto].
  - exists []. split; [reflexivity|constructor].
Qed.
Lemma take_split s : exists t, s = take_name s ++ t /\ (t = [] \/ exists t', t = "/"%char :: t').
Proof.
  induction s as [|c s (t & E & H)]; [exists []; auto|]. cbn [take_name]. destruct (c == "/"%char) eqn:Ec.
  - apply eqb_true in Ec. subst c. exists ("/"%char :: s). split; [reflexivity|right; eauto].
  - exists t. split; [cbn [app]; congruence|exact H].
Qed.
Lemma skip_over sl c t : Forall (eq "/"%char) sl -> c <> "/"%char -> skip_slashes (sl ++ c :: t) = c :: t.
Proof.
  intros H Hc. induction H as [|x l <- H IH]; cbn [app skip_slashes].
  - rewrite (proj2 (eqb_false _ _) Hc). reflexivity.
  - rewrite eqb_refl. exact IH.
Qed.
Lemma take_over n t : ~ In "/"%char n -> (t = [] \/ exists t', t = "/"%char :: t') -> take_name (n ++ t) = n.
Proof.
  intros Hn Ht. induction n as [|c n IH]; cbn [app take_name].
  - destruct Ht as [->|(t' & ->)]; reflexivity.
  - assert (c <> "/"%char) as Hc by (intros ->; apply Hn; left; reflexivity). rewrite (proj2 (eqb_false _ _) Hc), IH; [reflexivity|].
    intro I. apply Hn. right. exact I.
Qed.
Lemma rev_forall {A} (P : A -> Prop) l : Forall P l -> Forall P (rev l).
Proof. intro H. apply Forall_forall. intros x Hx. apply in_rev in Hx. rewrite Forall_forall in H. auto. Qed.
Lemma basename_named p n : n <> [] -> ~ In "/"%char n -> named p n -> basename p = n.
Proof.
  intros Hn Hs (d & sl & -> & Hd & Hsl). unfold basename. rewrite !rev_app_distr, <- app_assoc.
  destruct (rev n) as [|c t] eqn:E; [exfalso; apply Hn; rewrite <- (rev_involutive n), E; reflexivity|].
  assert (~ In "/"%char (rev n)) as Hr by (intro I; apply Hs, in_rev; exact I). rewrite E in Hr.
  cbn [app]. rewrite skip_over; [|apply rev_forall; exact Hsl|intros ->; apply Hr; left; reflexivity].
  change (c :: t ++ rev d) with ((c :: t) ++ rev d). rewrite take_over; [rewrite <- E; apply rev_involutive|exact Hr|].
  destruct Hd as [->|(d' & ->)]; [left; reflexivity|right]. rewrite rev_app_distr. eexists. reflexivity.
Qed.
Lemma named_basename p n : n <> B "." -> n <> B "/" -> basename p = n -> named p n.
Proof.
  intros H1 H2 <-. unfold basename in *. destruct (skip_split (rev p)) as (sl & E & Hsl).
  destruct (skip_slashes (rev p)) as [|c r] eqn:Er; [destruct p; contradiction|]. destruct (take_split (c :: r)) as (t & Et & Ht).
  rewrite Et in E. apply (f_equal (@rev ascii)) in E. rewrite rev_involutive, !rev_app_distr in E.
  exists (rev t), (rev sl). split; [rewrite E, <- app_assoc; reflexivity|]. split; [|apply rev_forall; exact Hsl].
  destruct Ht as [->|(t' & ->)]; [left; reflexivity|right]. exists (rev t'). reflexivity.
Qed.
Lemma named_iff p n : n <> [] -> ~ In "/"%char n -> n <> B "." -> beq (basename p) n = true <-> named p n.
Proof.
  intros H1 H2 H3. rewrite beq_eq. split; [|apply basename_named; assumption]. intro E. apply named_basename; [exact H3| |exact E].
  intros ->. apply H2. vm_compute. auto.
Qed.

(* C83. A login does nothing but what a valid git command asks for: if the program is
   not called by the name of a hook, it makes no call at all and fails, unless it is
   given one of git's three commands, by -c or (called by an absolute path) by
   SSH_ORIGINAL_COMMAND. What it does then is C37. *)
Theorem C83_login : forall e shell ssh argv, (forall a0 rest, argv = a0 :: rest -> ~ named a0 (B "pre-receive") /\ ~ named a0 (B "post-receive")) ->
  exists p, receiver_main e shell ssh argv = Login p /\
  forall t r, trace p t r -> (t = [] /\ (r = None \/ r = Some 1)) \/
    exists a0 cmd v bd, shell_command_parse cmd = Some v /\ (forall b, base_is (r_base e) (r_home e) b <-> bd = Some b) /\
      ((argv = [a0; B "-c"; cmd] /\ p = bgr_shell shell bd cmd) \/
       (argv = [a0] /\ ssh = Some cmd /\ (exists a, a0 = "/"%char :: a) /\ p = bgr_shell (Some a0) bd cmd)).
Proof.
  assert (R : forall t r, trace (@Ret scall 1) t r -> t = [] /\ (r = None \/ r = Some 1)) by (intros t r H; inversion H; auto).
  assert (K : forall self bd cmd t r, trace (bgr_shell self bd cmd) t r -> (t = [] /\ (r = None \/ r = Some 1)) \/ exists v, shell_command_parse cmd = Some v).
  { intros self bd cmd t r H. destruct (shell_command_parse cmd) as [v|] eqn:E; [right; eauto|]. left.
    destruct (C37_rejected_without_effect E H) as [H1 [H2|H2]]; auto. }
  intros e shell ssh argv N. destruct argv as [|a0 rest]; [exists (Ret 1); split; [reflexivity|]; intros; left; auto|].
  destruct (N _ _ eq_refl) as [N1 N2]. cbn [receiver_main].
  destruct (beq (basename a0) (B "pre-receive")) eqn:E1.
  { exfalso. apply N1. apply named_iff in E1; [exact E1|discriminate|intro I; vm_compute in I; intuition discriminate|discriminate]. }
  destruct (beq (basename a0) (B "post-receive")) eqn:E2.
  { exfalso. apply N2. apply named_iff in E2; [exact E2|discriminate|intro I; vm_compute in I; intuition discriminate|discriminate]. }
  destruct rest as [|a1 [|a2 [|a3 rest]]].
  - destruct ssh as [cmd|]; [|exists (Ret 1); split; [reflexivity|]; intros; left; auto].
    destruct (beq (firstn 1 a0) (B "/")) eqn:Es; [|exists (Ret 1); split; [reflexivity|]; intros; left; auto].
    eexists. split; [reflexivity|]. intros t r H. destruct (K _ _ _ _ _ H) as [H0|(v & Hv)]; [left; exact H0|right].
    exists a0, cmd, v, (base_dir e). split; [exact Hv|]. split; [intro b; apply base_dir_is|]. right. split; [reflexivity|]. split; [reflexivity|]. split; [|reflexivity].
    apply beq_eq in Es. destruct a0 as [|c a0]; [discriminate|]. injection Es as ->. eauto.
  - exists (Ret 1). split; [reflexivity|]. intros; left; auto.
  - destruct (beq a1 (B "-c")) eqn:Ec; [|exists (Ret 1); split; [reflexivity|]; intros; left; auto]. apply beq_eq in Ec. subst a1.
    eexists. split; [reflexivity|]. intros t r H. destruct (K _ _ _ _ _ H) as [H0|(v & Hv)]; [left; exact H0|right].
    exists a0, a2, v, (base_dir e). split; [exact Hv|]. split; [intro b; apply base_dir_is|]. left. split; reflexivity.
  - exists (Ret 1). split; [reflexivity|]. intros; left; auto.
Qed.
Print Assumptions C83_login.

(* and called by the name of a hook, in any directory and with any arguments, it is that hook *)
Theorem C83_hooks : forall e shell ssh a0 rest,
  (receiver_main e shell ssh (a0 :: rest) = PreReceive <-> named a0 (B "pre-receive")) /\
  (receiver_main e shell ssh (a0 :: rest) = PostReceive <-> named a0 (B "post-receive")).
Proof.
  intros e shell ssh a0 rest.
  assert (P1 : beq (basename a0) (B "pre-receive") = true <-> named a0 (B "pre-receive")) by (apply named_iff; [discriminate|intro I; vm_compute in I; intuition discriminate|discriminate]).
  assert (P2 : beq (basename a0) (B "post-receive") = true <-> named a0 (B "post-receive")) by (apply named_iff; [discriminate|intro I; vm_compute in I; intuition discriminate|discriminate]).
  assert (L : forall s, match rest with
           | [] => match ssh with
                   | Some cmd => if beq (firstn 1 a0) (B "/") then Login (bgr_shell (Some a0) (base_dir e) cmd) else Login (Ret 1)
                   | None => Login (Ret 1)
                   end
           | [a1; a2] => if beq a1 (B "-c") then Login (bgr_shell shell (base_dir e) a2) else Login (Ret 1)
           | _ => Login (Ret 1)
           end = s -> exists p, s = Login p).
  { intros s <-. destruct rest as [|a1 [|a2 [|a3 r]]].
    - destruct ssh; [destruct (beq _ (B "/"))|]; eexists; reflexivity.
    - eexists; reflexivity.
    - destruct (beq a1 _); eexists; reflexivity.
    - eexists; reflexivity. }
  cbn [receiver_main]. rewrite <- P1, <- P2. split.
  - destruct (beq (basename a0) (B "pre-receive")); [tauto|]. destruct (beq (basename a0) (B "post-receive")); [split; discriminate|].
    split; [|discriminate]. intro H. apply L in H. destruct H; discriminate.
  - destruct (beq (basename a0) (B "pre-receive")) eqn:E1.
    + split; [discriminate|]. intro H. apply beq_eq in E1. rewrite E1 in H. vm_compute in H. discriminate.
    + destruct (beq (basename a0) (B "post-receive")); [tauto|]. split; [|discriminate]. intro H. apply L in H. destruct H; discriminate.
Qed.
Print Assumptions C83_hooks.

Example C83_ex : forall e,
  receiver_main e (Some (B "/bin/r")) None [B "-blogc-git-receiver"] = Login (Ret 1) /\
  receiver_main e (Some (B "/bin/r")) (Some (B "git-upload-pack 'a'")) [B "blogc-git-receiver"] = Login (Ret 1) /\
  receiver_main e (Some (B "/bin/r")) None [B "r"; B "-c"; B "git-upload-pack 'a'"] = Login (bgr_shell (Some (B "/bin/r")) (base_dir e) (B "git-upload-pack 'a'")) /\
  receiver_main e (Some (B "/bin/sh")) (Some (B "git-upload-pack 'a'")) [B "/bin/r"] = Login (bgr_shell (Some (B "/bin/r")) (base_dir e) (B "git-upload-pack 'a'")) /\
  receiver_main e None None [B "hooks/pre-receive"] = PreReceive /\
  shell_command_parse (B "git-upload-pack 'a'") = Some (B "a") /\ ~ named (B "/bin/r") (B "pre-receive").
Proof.
  intro e. repeat (apply conj); try reflexivity. intro H. apply basename_named in H; [vm_compute in H; discriminate|discriminate|].
  intro I; vm_compute in I; intuition discriminate.
Qed.

(* ---------- words of commands ---------- *)
Lemma run_inert x : Forall (fun c => sh_special c = false /\ ~ In c [SP; TAB; SQ; DQ; BSL]) x ->
  forall done w, sh_run (Sh done (Word w)) x = Some (Sh done (Word (w ++ x))).
Proof.
  induction 1 as [|c x (H1 & H2) H IH]; intros done w; [rewrite app_nil_r; reflexivity|].
  assert (N : forall b, In b [SP; TAB; SQ; DQ; BSL] -> (c == b) = false) by (intros b I; apply eqb_false; intros ->; auto).
  cbn [sh_run sh_step sh_mode_of sh_done]. unfold sh_unquoted. rewrite !N, H1 by (cbn; tauto). cbn [orb]. rewrite IH, <- app_assoc. reflexivity.
Qed.
Lemma run_inert_blank x : inert x -> forall done, sh_run (Sh done Blank) x = Some (Sh done (Word x)).
Proof.
  intros [Hn H] done. destruct x as [|c x]; [contradiction|]. inversion H as [|? ? (H1 & H2) Hx]; subst.
  assert (N : forall b, In b [SP; TAB; SQ; DQ; BSL] -> (c == b) = false) by (intros b I; apply eqb_false; intros ->; auto).
  cbn [sh_run sh_step sh_mode_of sh_done]. unfold sh_unquoted. rewrite !N, H1 by (cbn; tauto). cbn [orb]. rewrite run_inert by exact Hx. reflexivity.
Qed.
Lemma run_quoted x : inert_quoted x -> forall done w, sh_run (Sh done (Double w)) x = Some (Sh done (Double (w ++ x))).
Proof.
  induction 1 as [|c x (H1 & H2) H IH]; intros done w; [rewrite app_nil_r; reflexivity|].
  assert (N : forall b, In b [DQ; BSL] -> (c == b) = false) by (intros b I; apply eqb_false; intros ->; auto).
  cbn [sh_run sh_step sh_mode_of sh_done]. rewrite !N, H1 by (cbn; tauto). rewrite IH, <- app_assoc. reflexivity.
Qed.

(* C82. After a push the repository is pushed to its mirror, once: to the remote
   [mirror] of the repository if it has one, else to the mirror of the settings; and
   whatever happens the hook returns 0 once it is in the repository. *)
Theorem C82_mirror : forall e bd d argv0 hooks t rv, base_is (r_base e) (r_home e) bd ->
  r_contents e (bd ++ B "/blogc-git-receiver.ini") = Some (doc_text d) -> doc_ok [] d ->
  r_real e (dirname argv0) = Some hooks -> let repo := dirname hooks in
  trace (post_receive e argv0) t (Some rv) -> In (Chdir repo, true) t -> rv = 0 /\
  exists (o1 o2 o3 : bool) (url : option bytes),
    t = (Chdir repo, true) :: (System (B "git config --local remote.mirror.pushurl > /dev/null"), o1) :: (if o1 then [] else [(System (B "git config --local remote.mirror.url > /dev/null"), o2)])
        ++ match url with Some u => [(System (B "git push --mirror " ++ u), o3)] | None => [] end /\
    (o1 = true \/ (o1 = false /\ o2 = true) -> url = Some (B "mirror")) /\
    (o1 = false -> o2 = false ->
       (forall n, section_of (r_real e) bd d repo n -> (forall m, section_of (r_real e) bd d repo m -> m = n) -> url = setting d n (B "mirror")) /\
       ((forall n, ~ section_of (r_real e) bd d repo n) -> url = None)).
Proof.
  intros e bd d argv0 hooks t rv Hb Ht Hd Hr repo H I. apply base_dir_is in Hb. unfold post_receive in H. rewrite Hr in H. fold repo in H.
  assert (Hk : no_nul (B "mirror")) by (intro K; vm_compute in K; intuition discriminate).
  assert (P : forall m t rv, trace (push m) t (Some rv) -> rv = 0 /\ exists o3, t = [(System (B "git push --mirror " ++ m), o3)]).
  { intros m t' rv' K. inversion K as [| |a k o3 t'' r K2]; subst. inversion K2; subst. eauto. }
  inversion H as [| |a k ok t1 r H1]; subst. destruct ok; cbn [negb] in H1.
  2:{ inversion H1; subst. destruct I as [I|[]]; discriminate. }
  inversion H1 as [| |a k o1 t2 r H2]; subst. destruct o1.
  { apply P in H2. destruct H2 as (-> & o3 & ->). split; [reflexivity|]. exists true, false, o3, (Some (B "mirror")).
    split; [reflexivity|]. split; [reflexivity|discriminate]. }
  inversion H2 as [| |a k o2 t3 r H3]; subst. destruct o2.
  { apply P in H3. destruct H3 as (-> & o3 & ->). split; [reflexivity|]. exists false, true, o3, (Some (B "mirror")).
    split; [reflexivity|]. split; [reflexivity|discriminate]. }
  assert (K : rv = 0 /\ exists o3, t3 = match setting_of e repo (B "mirror") with Some u => [(System (B "git push --mirror " ++ u), o3)] | None => [] end).
  { destruct (setting_of e repo (B "mirror")) as [m|]; [apply P in H3; exact H3|]. inversion H3; subst. split; [reflexivity|]. exists true. reflexivity. }
  destruct K as (-> & o3 & ->). split; [reflexivity|]. exists false, false, o3, (setting_of e repo (B "mirror")).
  split; [reflexivity|]. split; [intros [K|[_ K]]; discriminate|]. intros _ _. split.
  - intros n Hn U. apply (found Hb Ht Hd Hk Hn U).
  - intro N. apply (not_found Hb Ht Hd _ N).
Qed.
Print Assumptions C82_mirror.

(* without usable settings only the remote of the repository counts *)
Theorem C82_disabled : forall e argv0 hooks t r, settings_parse e = None -> r_real e (dirname argv0) = Some hooks ->
  trace (post_receive e argv0) t r -> forall c ok, In (System c, ok) t -> c = B "git config --local remote.mirror.pushurl > /dev/null" \/ c = B "git config --local remote.mirror.url > /dev/null" \/ c = B "git push --mirror mirror".
Proof.
  intros e argv0 hooks t r Hs Hr H c ok I.
  assert (K : only (fun a => match a with System c => c = pushurl_cmd \/ c = url_cmd \/ c = B "git push --mirror mirror" | _ => True end) (post_receive e argv0)).
  { unfold post_receive, setting_of. rewrite Hr, Hs. unfold push. cbn [only negb]. tauto. }
  pose proof (only_trace K H) as F. rewrite Forall_forall in F. exact (F _ I).
Qed.
Print Assumptions C82_disabled.

(* The command names the mirror if the shell takes its bytes as they are *)
Theorem C82_command_partial : forall u, inert u -> sh_words (B "git push --mirror " ++ u) = Some [B "git"; B "push"; B "--mirror"; u].
Proof.
  intros u H. unfold sh_words. rewrite sh_run_app. change (sh_run (Sh [] Blank) (B "git push --mirror ")) with (Some (Sh [B "git"; B "push"; B "--mirror"] Blank)).
  cbn iota. rewrite run_inert_blank by exact H. reflexivity.
Qed.
Print Assumptions C82_command_partial.
(* but it is not quoted: a directory with a blank in its name is two arguments *)
Theorem C82_refuted : exists e argv0 d t cmd, doc_ok [] d /\ r_contents e (B "/home/git/blogc-git-receiver.ini") = Some (doc_text d) /\
  setting d (B "blog.git") (B "mirror") = Some (B "/srv/my mirror") /\ trace (post_receive e argv0) t (Some 0) /\
  In (System cmd, true) t /\ sh_words cmd = Some [B "git"; B "push"; B "--mirror"; B "/srv/my"; B "mirror"].
Proof.
  set (d := Doc [] [(B "repo:blog.git", [ConfigSpec.Blank [LF]; Key (B "mirror") [] (ConfigSpec.Quoted [] (map Lit (B "/srv/my mirror")) []) LF])]).
  exists (ex_env true (doc_text d) ex_push None), (B "hooks/post-receive"), d. eexists. exists (B "git push --mirror /srv/my mirror").
  split.
  { assert (Hkl : forall (k : bytes) c, ~ In c hblanks -> forall r c', k ++ [c] = r ++ [c'] -> ~ In c' hblanks).
    { intros k c H r c' E. apply app_inj_tail in E. destruct E as [_ <-]. exact H. }
    split; [constructor|]. constructor; [|constructor]. cbn [fst snd]. split; [split; [discriminate|bytes_ok]|]. split; [intros []|]. intros _.
    constructor; [cbn [map_line_ok]; bytes_ok|]. constructor; [|constructor]. cbn [map_line_ok value_ok].
    split; [|bytes_ok]. split; [apply no_nulb_spec; reflexivity|]. split; [bytes_ok|].
    split; [exists "m"%char, (B "irror"); split; [reflexivity|bytes_ok]|]. split; [|bytes_ok]. apply (Hkl (B "mirro") "r"%char). bytes_ok. }
  split; [reflexivity|]. split; [reflexivity|]. split.
  - unfold post_receive. change (r_real _ _) with (Some (B "/srv/git/blog.git/hooks")). cbv iota zeta.
    refine (@T_do _ _ _ true _ _ _). cbn [negb]. do 2 refine (@T_do _ _ _ false _ _ _).
    change (setting_of _ _ _) with (Some (B "/srv/my mirror")). refine (@T_do _ _ _ true _ _ _). apply T_ret.
  - split; [|vm_compute; reflexivity]. right. right. right. left. reflexivity.
Qed.
Print Assumptions C82_refuted.

Example C82_ex : inert (B "git@host:blog.git") /\ setting ex_ini (B "blog.git") (B "mirror") = Some (B "git@host:blog.git") /\
  setting_of (ex_env true (doc_text ex_ini) ex_push None) (B "/srv/git/blog.git") (B "mirror") = Some (B "git@host:blog.git").
Proof.
  split; [|vm_compute; auto]. split; [discriminate|]. unfold B. cbn [list_ascii_of_string]. repeat (constructor; [split; [reflexivity|intro I; cbn in I; intuition discriminate]|]). constructor.
Qed.

(* ---------- builds ---------- *)
Lemma dec_digits fuel : forall n acc, Forall (fun c => In c (B "0123456789")) acc -> Forall (fun c => In c (B "0123456789")) (Content.dec_go fuel n acc).
Proof.
  induction fuel as [|f IH]; intros n acc H; [exact H|]. cbn [Content.dec_go].
  assert (D : In (ascii_of_N (48 + n mod 10)) (B "0123456789")).
  { assert (n mod 10 < 10)%N as L by (apply N.mod_lt; discriminate). remember (n mod 10)%N as m.
    assert (K : In m (map N.of_nat (seq 0 10))). { apply in_map_iff. exists (N.to_nat m). rewrite N2Nat.id. split; [reflexivity|]. apply in_seq. lia. }
    cbn in K. repeat destruct K as [<-|K]; try contradiction; vm_compute; tauto. }
  destruct (N.eqb _ _); [constructor; assumption|]. apply IH. constructor; assumption.
Qed.
Lemma epoch_digits n : Forall (fun c => In c (B "0123456789")) (Content.dec n).
Proof. apply dec_digits. constructor. Qed.
Lemma output_named b ref n x : hexadecimal ref -> x = [] \/ x = B "-" -> let name := ref ++ B "-" ++ Content.dec n ++ x in
  named (output_dir b ref n ++ x) name /\ ~ In "/"%char name /\ name <> [].
Proof.
  intros [Hn Hh] Hx name. split; [|split].
  - exists (b ++ B "/"), []. unfold name, output_dir. rewrite app_nil_r, <- !app_assoc. split; [reflexivity|]. split; [right; exists b; reflexivity|constructor].
  - unfold name. rewrite !in_app_iff. pose proof (epoch_digits n) as He. rewrite Forall_forall in Hh, He. intros [I|[I|[I|I]]].
    + apply Hh in I. vm_compute in I. intuition discriminate.
    + vm_compute in I. intuition discriminate.
    + apply He in I. vm_compute in I. intuition discriminate.
    + destruct Hx as [->| ->]; vm_compute in I; intuition discriminate.
  - unfold name. destruct ref; [contradiction|discriminate].
Qed.
Lemma split_first r y tok : ~ In "-"%char r -> split_go "-"%char 2 0 tok (r ++ B "-" ++ y) = [tok ++ r; y].
Proof.
  intro H. assert (G : forall y tok, split_go "-"%char 2 1 tok y = [tok ++ y]).
  { induction y0 as [|c y0 IH]; intro tk; cbn [split_go]; [rewrite app_nil_r; reflexivity|]. rewrite andb_false_r, IH, <- app_assoc. reflexivity. }
  revert tok H. induction r as [|c r IH]; intros tok H.
  - change (B "-") with ["-"%char]. cbn [app split_go]. cbn. rewrite G, app_nil_r. reflexivity.
  - assert (c <> "-"%char) as Hc by (intros ->; apply H; left; reflexivity). cbn [app split_go]. rewrite (proj2 (eqb_false _ _) Hc). cbn [andb].
    rewrite IH by (intro I; apply H; right; exact I). rewrite <- app_assoc. reflexivity.
Qed.
Lemma links t : forall w w' (P : bytes -> Prop), runs dstep w t w' -> Forall (fun x => match fst x with SymlinkSym d => P d | _ => True end) t ->
  link w' = link w \/ link w' = None \/ exists d, link w' = Some d /\ P d.
Proof.
  intros w w' P H. induction H as [w|w a ok w1 t w2 Hs H IH]; intro F; [left; reflexivity|].
  inversion F as [|? ? F1 F2]; subst. specialize (IH F2). cbn [fst] in F1.
  destruct IH as [E|[E|E]]; [|right; left; exact E|right; right; exact E]. rewrite E. destruct Hs; cbn; auto. right. right. eauto.
Qed.

(* C84. Run by hand, the hook builds the commit of the site that is published: if a run
   for a commit has changed the link to a directory, and the link is then resolved to a
   directory of the same name, the hook without GIT_DIR deploys that commit to that link. *)
Theorem C84_rebuild : forall e argv0 hooks tmp epoch old sym ref p t r w w' dir,
  hook_plan e argv0 = Go sym ref -> hexadecimal ref -> r_real e (dirname argv0) = Some hooks ->
  pre_receive e argv0 tmp epoch old = Ok p -> trace p t r -> runs dstep w t w' -> link w' = Some dir -> link w <> Some dir ->
  forall e' argv0' dir' n, r_git_dir e' = false -> r_real e' (dirname argv0') = Some hooks -> r_enter e' (dirname hooks) = true ->
  site_link e' (dirname hooks) = site_link e (dirname hooks) ->
  r_readable e' sym = true -> r_real e' sym = Some dir' -> n <> [] -> ~ In "/"%char n -> named dir n -> named dir' n ->
  hook_plan e' argv0' = Go sym ref.
Proof.
  intros e argv0 hooks tmp epoch old sym ref p t r w w' dir Hp Hh Hr Hpp Ht Hw Hl Hl0 e' argv0' dir' n Hg Hr' He Hs Ha Hd Hn Hns N1 N2.
  unfold pre_receive in Hpp. rewrite Hp in Hpp. destruct (builds_dir e) as [b| |]; try discriminate. cbn in Hpp. injection Hpp as <-.
  assert (F : Forall (fun x => match fst x with SymlinkSym d => d = output_dir b ref epoch \/ d = output_dir b ref epoch ++ B "-" | _ => True end) t).
  { eapply (only_trace (P := fun a => match a with SymlinkSym d => d = output_dir b ref epoch \/ d = output_dir b ref epoch ++ B "-" | _ => True end)); [|exact Ht].
    clear. set (o := output_dir b ref epoch). clearbody o.
    match goal with |- only ?p _ => set (P := p) end.
    assert (O : forall a, match a with SymlinkSym _ => False | _ => True end -> P a) by (intros [] H; try contradiction; exact I).
    assert (C : forall rv, only P (cleanup tmp rv)).
    { intro rv. unfold cleanup, rmdir_recursive. cbn [only]. repeat match goal with |- _ /\ _ => apply conj end; try exact I; apply O; exact I. }
    assert (G : forall out, P (SymlinkSym out) -> only P (publish tmp out old)).
    { intros out Ho. unfold publish, rmdir_recursive. cbn [only negb]. repeat match goal with |- _ /\ _ => apply conj end; try exact I; try apply C; try exact Ho; apply O; exact I. }
    assert (G1 : only P (publish tmp o old)) by (apply G; left; reflexivity).
    assert (G2 : only P (publish tmp (o ++ B "-") old)) by (apply G; right; reflexivity).
    unfold deploy. cbn [only negb]. repeat match goal with |- _ /\ _ => apply conj end; try exact I; try apply C; try exact G1; try exact G2; apply O; exact I. }
  apply (links Hw) in F. destruct F as [F|[F|(d & F & Pd)]]; [congruence|congruence|]. assert (d = dir) by congruence. subst d.
  assert (Hx : exists x, dir = output_dir b ref epoch ++ x /\ (x = [] \/ x = B "-")).
  { destruct Pd as [->| ->]; [exists []; rewrite app_nil_r; auto|exists (B "-"); auto]. }
  destruct Hx as (x & -> & Hx). destruct (output_named b epoch Hh Hx) as (M1 & M2 & M3).
  apply basename_named in N1; [|assumption|assumption]. apply basename_named in M1; [|assumption|assumption]. rewrite N1 in M1. clear N1.
  apply basename_named in N2; [|assumption|assumption]. rewrite M1 in N2.
  assert (sym = site_link e (dirname hooks)) as Es.
  { unfold hook_plan in Hp. rewrite Hr in Hp. destruct (r_enter e _); [|discriminate]. destruct (r_git_dir e); [destruct (hook_ref _)|destruct (last_ref _ _)]; congruence. }
  unfold hook_plan. rewrite Hr', He, Hg, Hs, <- Es. unfold last_ref. rewrite Ha, Hd, N2. unfold str_split.
  destruct Hh as [Hh1 Hh]. destruct ref as [|c0 r0] eqn:Er; [contradiction|]. rewrite <- Er in *.
  destruct (ref ++ B "-" ++ Content.dec epoch ++ x) as [|? ?] eqn:El; [subst; discriminate|]. rewrite <- El.
  rewrite split_first; [reflexivity|]. intro I. rewrite Forall_forall in Hh. apply Hh in I. vm_compute in I. intuition discriminate.
Qed.
Print Assumptions C84_rebuild.

(* a directory of another name is not taken *)
Theorem C84_unknown : forall e sym dir, r_real e sym = Some dir -> ~ In "-"%char (basename dir) -> last_ref e sym = None.
Proof.
  intros e sym dir Hr Hn. unfold last_ref. rewrite Hr. destruct (r_readable e sym); [|reflexivity]. unfold str_split.
  destruct (basename dir) as [|c0 s0] eqn:E; [reflexivity|]. rewrite <- E in *. clear E c0 s0.
  assert (G : forall s tok, ~ In "-"%char s -> split_go "-"%char 2 0 tok s = [tok ++ s]).
  { induction s as [|c s IH]; intros tok H; cbn [split_go]; [rewrite app_nil_r; reflexivity|].
    assert (c <> "-"%char) as Hc by (intros ->; apply H; left; reflexivity). rewrite (proj2 (eqb_false _ _) Hc). cbn [andb].
    rewrite IH by (intro I; apply H; right; exact I). rewrite <- app_assoc. reflexivity. }
  rewrite G by exact Hn. reflexivity.
Qed.
Print Assumptions C84_unknown.

Example C84_ex : hook_plan (ex_env false (doc_text ex_ini) [] (Some (B "/home/git/builds/abc1-1700000000-"))) (B "hooks/pre-receive") = Go (B "/srv/www/blog") (B "abc1")
  /\ hook_plan (ex_env false (doc_text ex_ini) [] (Some (B "/srv/www/html"))) (B "hooks/pre-receive") = Stop 1
  /\ (exists p, pre_receive (ex_env true (doc_text ex_ini) ex_push None) (B "hooks/pre-receive") (B "/tmp/blogc_a") 1700000000 [] = Ok p)
  /\ output_dir (B "/home/git/builds") (B "abc1") 1700000000 = B "/home/git/builds/abc1-1700000000" /\ hexadecimal (B "abc1").
Proof.
  split; [vm_compute; reflexivity|]. split; [vm_compute; reflexivity|]. split; [eexists; reflexivity|]. split; [vm_compute; reflexivity|].
  split; [discriminate|]. apply Forall_forall. intros c H. vm_compute in H. vm_compute. intuition.
Qed.

(* C85. The tools get the commit and the directory of the build as they are, if the
   builds directory has no byte that the shell interprets inside double quotes. *)
Lemma hex_quoted s : Forall (fun c => In c (B "0123456789abcdef-/")) s -> inert_quoted s.
Proof.
  intro H. apply Forall_forall. intros c I. rewrite Forall_forall in H. apply H in I. vm_compute in I.
  repeat destruct I as [<-|I]; try contradiction; (split; [reflexivity|intro K; vm_compute in K; intuition discriminate]).
Qed.
Lemma output_quoted b ref n x : inert_quoted b -> hexadecimal ref -> x = [] \/ x = B "-" -> inert_quoted (output_dir b ref n ++ x).
Proof.
  intros Hb [_ Hr] Hx. unfold output_dir. rewrite <- app_assoc. apply Forall_app. split; [exact Hb|]. apply hex_quoted.
  pose proof (epoch_digits n) as He. rewrite Forall_forall in Hr, He.
  apply Forall_forall. intros c I. rewrite !in_app_iff in I.
  assert (S1 : forall c, In c (B "0123456789abcdef") -> In c (B "0123456789abcdef-/")) by (intros z Z; change (B "0123456789abcdef-/") with (B "0123456789abcdef" ++ B "-/"); apply in_or_app; auto).
  assert (S2 : forall c, In c (B "0123456789") -> In c (B "0123456789abcdef")) by (intros z Z; change (B "0123456789abcdef") with (B "0123456789" ++ B "abcdef"); apply in_or_app; auto).
  destruct I as [[I|[I|[I|I]]]|I]; [vm_compute in I; vm_compute; tauto|auto|vm_compute in I; vm_compute; tauto|auto|].
  destruct Hx as [->| ->]; vm_compute in I; vm_compute; tauto.
Qed.
Theorem C85_build_partial : forall e b argv0 sym ref old epoch p t r out ok tmp impl cpus,
  builds_is (r_builds e) (r_base e) (r_home e) b -> hook_plan e argv0 = Go sym ref -> inert_quoted b -> hexadecimal ref -> inert_quoted tmp ->
  In impl [B "make"; B "gmake"] -> pre_receive e argv0 tmp epoch old = Ok p -> trace p t r -> In (BuildBegin out, ok) t \/ In (SymlinkSym out, ok) t ->
  (exists x, out = b ++ B "/" ++ ref ++ B "-" ++ Content.dec epoch ++ x /\ (x = [] \/ x = B "-")) /\
  (exists c1 c2, archive_cmd ref tmp = c1 ++ B "| " ++ c2 /\ sh_words c1 = Some [B "git"; B "archive"; ref] /\
     sh_words c2 = Some [B "tar"; B "-x"; B "-C"; tmp; B "-f"; B "-"]) /\
  sh_words (make_cmd out) = Some [B "OUTPUT_DIR=" ++ out; B "blogc-make"; B "-V"; B "all"] /\
  sh_words (gmake_cmd impl cpus out) = Some [impl; B "-j" ++ Content.dec cpus; B "OUTPUT_DIR=" ++ out; B "BLOGC_GIT_RECEIVER=1"].
Proof.
  intros e b argv0 sym ref old epoch p t r out ok tmp impl cpus Hbd Hp Hb Hr Ht Hi Hpp Htr Hin.
  apply builds_dir_is in Hbd. unfold pre_receive in Hpp. rewrite Hp, Hbd in Hpp. cbn in Hpp. injection Hpp as <-.
  assert (Ho : out = output_dir b ref epoch \/ out = output_dir b ref epoch ++ B "-").
  { pose (P := fun a => match a with BuildBegin d | SymlinkSym d => d = output_dir b ref epoch \/ d = output_dir b ref epoch ++ B "-" | _ => True end).
    assert (F : Forall (fun x => P (fst x)) t).
    { eapply (only_trace (P := P)); [|exact Htr].
      assert (O : forall a, match a with BuildBegin _ | SymlinkSym _ => False | _ => True end -> P a) by (intros [] H; try contradiction; exact I).
      assert (C : forall rv, only P (cleanup tmp rv)).
      { intro rv. unfold cleanup, rmdir_recursive. cbn [only]. repeat match goal with |- _ /\ _ => apply conj end; try exact I; apply O; exact I. }
      assert (G : forall out, P (SymlinkSym out) -> only P (publish tmp out old)).
      { intros o' Ho'. unfold publish, rmdir_recursive. cbn [only negb]. repeat match goal with |- _ /\ _ => apply conj end; try exact I; try apply C; try exact Ho'; apply O; exact I. }
      assert (G1 : only P (publish tmp (output_dir b ref epoch) old)) by (apply G; left; reflexivity).
      assert (G2 : only P (publish tmp (output_dir b ref epoch ++ B "-") old)) by (apply G; right; reflexivity).
      clear - O C G1 G2. generalize dependent (output_dir b ref epoch). intros o P O C G1 G2.
      unfold deploy. cbn [only negb]. repeat match goal with |- _ /\ _ => apply conj end; try exact I; try apply C; try exact G1; try exact G2; apply O; exact I. }
    rewrite Forall_forall in F. destruct Hin as [Hin|Hin]; exact (F _ Hin). }
  assert (Q : inert_quoted out).
  { destruct Ho as [->| ->]; [rewrite <- (app_nil_r (output_dir _ _ _))|]; apply output_quoted; auto. }
  assert (Hq : inert_quoted ref).
  { apply hex_quoted. destruct Hr as [_ Hr]. rewrite Forall_forall in Hr. apply Forall_forall. intros c I. apply Hr in I.
    change (B "0123456789abcdef-/") with (B "0123456789abcdef" ++ B "-/"); apply in_or_app; auto. }
  split; [unfold output_dir in Ho; destruct Ho as [->| ->]; [exists []|exists (B "-")]; rewrite <- ?app_assoc, ?app_nil_r; auto|].
  clear Ho Hr. split; [|split].
  - exists (B "git archive """ ++ ref ++ B """ "), (B "tar -x -C """ ++ tmp ++ B """ -f -"). split.
    + unfold archive_cmd. change (B """ | tar -x -C """) with (B """ " ++ B "| " ++ B "tar -x -C """). rewrite <- !app_assoc. reflexivity.
    + split; unfold sh_words; rewrite sh_run_app.
      * change (sh_run (Sh [] Blank) (B "git archive """)) with (Some (Sh [B "git"; B "archive"] (Double []))). cbv iota beta.
        rewrite sh_run_app, run_quoted by exact Hq. reflexivity.
      * change (sh_run (Sh [] Blank) (B "tar -x -C """)) with (Some (Sh [B "tar"; B "-x"; B "-C"] (Double []))). cbv iota beta.
        rewrite sh_run_app, run_quoted by exact Ht. reflexivity.
  - unfold make_cmd, sh_words. rewrite sh_run_app. change (sh_run (Sh [] Blank) (B "OUTPUT_DIR=""")) with (Some (Sh [] (Double (B "OUTPUT_DIR=")))). cbv iota beta.
    rewrite sh_run_app, run_quoted by exact Q. reflexivity.
  - unfold gmake_cmd, sh_words. rewrite sh_run_app.
    assert (D : Forall (fun c => sh_special c = false /\ ~ In c [SP; TAB; SQ; DQ; BSL]) (Content.dec cpus)).
    { pose proof (epoch_digits cpus) as He. rewrite Forall_forall in He. apply Forall_forall. intros c I. apply He in I. vm_compute in I.
      repeat destruct I as [<-|I]; try contradiction; (split; [reflexivity|intro K; vm_compute in K; intuition discriminate]). }
    assert (E : sh_run (Sh [] Blank) impl = Some (Sh [] (Word impl))) by (destruct Hi as [<-|[<-|[]]]; reflexivity). rewrite E. cbv iota beta. rewrite sh_run_app.
    change (sh_run (Sh [] (Word impl)) (B " -j")) with (Some (Sh [impl] (Word (B "-j")))). cbv iota beta. rewrite sh_run_app, run_inert by exact D. cbv iota beta. rewrite sh_run_app.
    change (sh_run (Sh [impl] (Word (B "-j" ++ Content.dec cpus))) (B " OUTPUT_DIR=""")) with (Some (Sh [impl; B "-j" ++ Content.dec cpus] (Double (B "OUTPUT_DIR=")))).
    cbv iota beta. rewrite sh_run_app, run_quoted by exact Q. reflexivity.
Qed.
Print Assumptions C85_build_partial.
Example C85_ex : let e := ex_env true (doc_text ex_ini) ex_push None in
  builds_is (r_builds e) (r_base e) (r_home e) (B "/home/git/builds") /\ hook_plan e (B "hooks/pre-receive") = Go (B "/srv/www/blog") (B "abc1") /\
  inert_quoted (B "/home/git/builds") /\ hexadecimal (B "abc1") /\ inert_quoted (B "/tmp/blogc_x1Y2z3") /\
  exists p t r, pre_receive e (B "hooks/pre-receive") (B "/tmp/blogc_x1Y2z3") 7 [] = Ok p /\ trace p t r /\ In (BuildBegin (B "/home/git/builds/abc1-7"), true) t.
Proof.
  split; [right; split; [reflexivity|]; exists (B "/home/git"); split; [right; split; reflexivity|reflexivity]|]. split; [vm_compute; reflexivity|].
  unfold inert_quoted, hexadecimal. split; [|split; [|split]].
  1,3: (unfold B; cbn [list_ascii_of_string]; repeat (constructor; [split; [reflexivity|intro I; cbn in I; intuition discriminate]|]); constructor).
  - split; [discriminate|]. apply Forall_forall. intros c Hc. vm_compute in Hc. vm_compute. intuition.
  - eexists. exists [(Mkdtemp (B "/tmp/blogc_x1Y2z3"), true); (Archive, true); (ChdirTmp, true); (Exists (B "/home/git/builds/abc1-7"), false);
      (Tree (B "blogcfile"), true); (Probe (B "blogc-make"), true); (BuildBegin (B "/home/git/builds/abc1-7"), true)], None.
    split; [unfold pre_receive; replace (hook_plan _ _) with (Go (B "/srv/www/blog") (B "abc1")) by (vm_compute; reflexivity); reflexivity|].
    split; [unfold deploy; repeat refine (T_do _ _); apply T_now|do 6 right; left; reflexivity].
Qed.

(* A builds directory with a dollar sign in its name is expanded, so the site is not
   built where the link then points. *)
Theorem C85_refuted : exists e b, builds_dir e = Ok b /\ forall ref epoch, sh_words (make_cmd (output_dir b ref epoch)) = None.
Proof.
  exists (Renv None (Some (B "/srv/$x")) None true [] (fun _ => None) (fun _ => true) (fun _ => true) (fun _ => None)), (B "/srv/$x").
  split; [reflexivity|]. intros ref epoch. reflexivity.
Qed.
Print Assumptions C85_refuted.
(* Without HOME there is no error message: a NULL pointer is printed. *)
Theorem C85_home_refuted : exists e argv0 tmp epoch old, pre_receive e argv0 tmp epoch old = UB.
Proof.
  exists (Renv None None None true ex_push (fun _ => Some (B "/r/hooks")) (fun _ => true) (fun _ => true) (fun _ => None)), (B "hooks/pre-receive"), [], 0%N, [].
  vm_compute. reflexivity.
Qed.
Print Assumptions C85_home_refuted.
