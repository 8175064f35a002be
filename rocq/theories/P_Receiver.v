(* blogc-git-receiver: the login shell and the choice of the deployed commit
   (C37, C38, C39). *)
From Verif Require Import Base Utils UtilsProofs Trie TrieProofs ShSpec P_Common Effects Receiver ReceiverSpec ReceiverProofs.
#[local] Arguments B : simpl never.

(* ---------- C37 ---------- *)
(* Exactly which commands are accepted: one of git's three transfer commands, a
   space and a path quoted as git quotes it; an unfinished piece may follow. *)
Theorem C37_accepted : forall cmd v, shell_command_parse cmd = Some v <->
  v <> [] /\ exists w ps t, cmd = w ++ [SP] ++ word_src ps ++ t /\ In w verbs /\ Forall piece_ok ps
    /\ (t = [] \/ t = [BSL] \/ exists s, t = SQ :: s /\ ~ In SQ s) /\ v = relative ps.
Proof. exact parse_exact. Qed.
Print Assumptions C37_accepted.

(* An accepted command that a shell accepts too is, for that shell, a transfer command
   with one argument, and the repository is that argument with one slash at its
   beginning removed (all of the slashes, if it begins with two: see below).
   Missing for the full property: the two refutations. *)
Theorem C37_shell_partial : forall cmd v ws, no_nul cmd -> shell_command_parse cmd = Some v -> sh_words cmd = Some ws ->
  exists w p, ws = [w; p] /\ In w verbs /\ ((forall r, p <> B "//" ++ r) -> v = without_slash p).
Proof.
  intros cmd v ws Hn Hp Hw. destruct (parse_words Hn Hp Hw) as (w & ps & _ & H1 & H2 & -> & ->).
  exists w, (word_val ps). split; [reflexivity|]. split; [exact H1|]. intro H. apply relative_once; assumption.
Qed.
Print Assumptions C37_shell_partial.

(* every command git sends is accepted: the path quoted in one or more pieces *)
Theorem C37_git_commands : forall w ps, In w verbs -> Forall piece_ok ps -> relative ps <> [] ->
  shell_command_parse (w ++ [SP] ++ word_src ps) = Some (relative ps).
Proof.
  intros w ps Hw Hp Hr. apply parse_exact. split; [exact Hr|]. exists w, ps, []. rewrite app_nil_r.
  split; [reflexivity|]. split; [exact Hw|]. split; [exact Hp|]. split; [left; reflexivity|reflexivity].
Qed.
Print Assumptions C37_git_commands.

(* a command that is not even a complete shell command is accepted, and the repository
   is a part of what was sent *)
Theorem C37_refuted : exists cmd v, shell_command_parse cmd = Some v /\ sh_words cmd = None.
Proof. exists (B "git-receive-pack 'blog.git''/../x"), (B "blog.git"). vm_compute. auto. Qed.
Print Assumptions C37_refuted.
(* more than one slash can be lost *)
Theorem C37_slashes_refuted : exists cmd w p v, sh_words cmd = Some [w; p] /\ shell_command_parse cmd = Some v /\ v <> without_slash p.
Proof. exists (B "git-receive-pack '/''/blog.git'"), (B "git-receive-pack"), (B "//blog.git"), (B "blog.git"). vm_compute. repeat split; congruence. Qed.
Print Assumptions C37_slashes_refuted.

(* Anything else has no effect: no call is made at all and the shell fails *)
Theorem C37_rejected_without_effect : forall self bd cmd t r, shell_command_parse cmd = None ->
  trace (bgr_shell self bd cmd) t r -> t = [] /\ (r = Some 1 \/ r = None).
Proof.
  intros self bd cmd t r E H. unfold bgr_shell in H. rewrite E in H.
  assert (K : trace (@Ret scall 1) t r) by (destruct self, bd; exact H). inversion K; subst; auto.
Qed.
Print Assumptions C37_rejected_without_effect.

(* The commands that are run name the repository literally, whatever its bytes: git
   serves it with the verb that was sent, and only a push creates it. *)
Theorem C37_served : forall self bd cmd v t r, no_nul cmd -> no_nul bd -> shell_command_parse cmd = Some v ->
  trace (bgr_shell (Some self) (Some bd) cmd) t r ->
  exists w, In w verbs /\ (exists rest, cmd = w ++ SP :: rest) /\
    (forall c ok, In (GitShell c, ok) t -> sh_words c = Some [w; bd ++ B "/repos/" ++ v]) /\
    (forall c ok, In (System c, ok) t -> w = B "git-receive-pack" /\
       exists pre, c = pre ++ B " > /dev/null" /\ sh_words pre = Some [B "git"; B "init"; B "--bare"; bd ++ B "/repos/" ++ v]).
Proof.
  intros self bd cmd v t r Hn Hb Hp Ht. pose proof (repo_nn Hn Hb Hp) as Hnv. pose proof Hp as Hq. apply parse_exact in Hq.
  destruct Hq as (Hv & w & ps & tl & Ec & Hw & Hps & Htl & Hr). exists w. split; [exact Hw|]. cbn [app] in Ec.
  split; [exists (word_src ps ++ tl); exact Ec|].
  set (repo := bd ++ B "/repos/" ++ v) in *. set (q := shell_quote (Some repo)).
  assert (K : only (fun a => match a with
                | GitShell c => c = w ++ [SP] ++ q
                | System c => c = B "git init --bare " ++ q ++ B " > /dev/null" /\ w = B "git-receive-pack"
                | _ => True end)
                (bgr_shell (Some self) (Some bd) cmd)).
  { unfold bgr_shell. rewrite Hp. fold repo. fold q.
    match goal with |- only ?p _ => set (P := p) end.
    assert (G : only P (git_exec bd cmd q)).
    { unfold git_exec, must. cbn [only]. split; [exact I|]. split; [|exact I]. destruct (Nat.ltb _ _); [exact I|].
      rewrite Ec, first_word_app by (apply verb_nospace; exact Hw). cbn [only]. split; [reflexivity|]. split; exact I. }
    destruct (beq (firstn 11 cmd) (B "git-upload-")) eqn:Eu; [exact G|].
    assert (Sy : P (System (B "git init --bare " ++ q ++ B " > /dev/null"))).
    { split; [reflexivity|]. revert Hw Ec Eu. clear. unfold verbs. cbn [In]. intros [<-|[<-|[<-|[]]]] -> E; [reflexivity| |]; vm_compute in E; discriminate E. }
    assert (O : forall a, match a with GitShell _ | System _ => False | _ => True end -> P a) by (intros [] H; try contradiction; exact I).
    unfold must, relink, must. cbn [only]. clearbody P. repeat match goal with |- _ /\ _ => apply conj end; first [exact I|exact Sy|exact G|apply O; exact I]. }
  pose proof (only_trace K Ht) as F. rewrite Forall_forall in F. split; intros c ok Hin; specialize (F _ Hin); cbn [fst] in F.
  - subst c. unfold sh_words. rewrite app_assoc, sh_run_app, (sh_verb Hw). unfold q. rewrite quote_run_blank by exact Hnv. reflexivity.
  - destruct F as [-> F]. split; [exact F|]. exists (B "git init --bare " ++ q). split; [rewrite <- app_assoc; reflexivity|].
    unfold sh_words. rewrite sh_run_app. change (sh_run (Sh [] Blank) (B "git init --bare ")) with (Some (Sh [B "git"; B "init"; B "--bare"] Blank)).
    cbn iota. unfold q. rewrite quote_run_blank by exact Hnv. reflexivity.
Qed.
Print Assumptions C37_served.

(* What a session changes by itself is the hooks of the repository, which point back to
   the login shell. *)
Theorem C37_changes : forall self bd cmd v cwd t r, shell_command_parse cmd = Some v ->
  trace (bgr_shell (Some self) (Some ("/"%char :: bd)) cmd) t r ->
  let hooks := "/"%char :: bd ++ B "/repos/" ++ v ++ B "/hooks" in
  Forall (fun x => match snd x with
    | Mkdir p => seen_from (fst x) p = hooks
    | Unlink p => seen_from (fst x) p = hooks ++ B "/pre-receive" \/ seen_from (fst x) p = hooks ++ B "/post-receive"
    | Symlink target p => target = self /\ (seen_from (fst x) p = hooks ++ B "/pre-receive" \/ seen_from (fst x) p = hooks ++ B "/post-receive")
    | _ => True
    end) (stated wd_next cwd t).
Proof.
  intros self bd cmd v cwd t r Hp Ht hooks. 
  refine (@only_in_trace _ _ wd_next (fun s a => match a with
    | Mkdir p => seen_from s p = hooks
    | Unlink p => seen_from s p = hooks ++ B "/pre-receive" \/ seen_from s p = hooks ++ B "/post-receive"
    | Symlink target p => target = self /\ (seen_from s p = hooks ++ B "/pre-receive" \/ seen_from s p = hooks ++ B "/post-receive")
    | _ => True
    end) _ t r Ht cwd _). clear Ht t r.
  match goal with |- only_in _ ?p _ _ => set (P := p) end.
  unfold bgr_shell. rewrite Hp. set (repo := ("/"%char :: bd) ++ B "/repos/" ++ v). set (q := shell_quote (Some repo)).
  assert (G : forall s, only_in wd_next P s (git_exec ("/"%char :: bd) cmd q)).
  { intro s. unfold git_exec, must. cbn [only_in]. split; [exact I|]. split; [|exact I]. destruct (Nat.ltb _ _); [exact I|].
    cbn [only_in]. split; [exact I|]. split; exact I. }
  destruct (beq (firstn 11 cmd) (B "git-upload-")); [apply G|].
  assert (O : forall s a, match a with Mkdir _ | Unlink _ | Symlink _ _ => False | _ => True end -> P s a) by (intros s [] H; try contradiction; exact I).
  assert (R : forall s, seen_from s repo = repo) by reflexivity.
  assert (Hh : seen_from repo (B "hooks") = hooks).
  { unfold seen_from, repo, hooks. change (B "hooks") with ("h"%char :: B "ooks"). cbn iota beta. change ("h" =? "/")%char with false. cbn iota.
    cbn [app]. rewrite <- !app_assoc. reflexivity. }
  assert (H1 : seen_from hooks (B "pre-receive") = hooks ++ B "/pre-receive") by reflexivity.
  assert (H2 : seen_from hooks (B "post-receive") = hooks ++ B "/post-receive") by reflexivity.
  assert (M : P repo (Mkdir (B "hooks"))) by exact Hh.
  assert (U1 : P hooks (Unlink (B "pre-receive"))) by (left; exact H1).
  assert (U2 : P hooks (Unlink (B "post-receive"))) by (right; exact H2).
  assert (S1 : P hooks (Symlink self (B "pre-receive"))) by (split; [reflexivity|left; exact H1]).
  assert (S2 : P hooks (Symlink self (B "post-receive"))) by (split; [reflexivity|right; exact H2]).
  clearbody P. unfold must, relink, must. cbn [only_in wd_next]. rewrite !R, !Hh. clearbody hooks repo.
  repeat match goal with |- _ /\ _ => apply conj end; first [exact I|exact M|exact U1|exact U2|exact S1|exact S2|apply G|apply O; exact I].
Qed.
Print Assumptions C37_changes.

Example C37_ex1 : shell_command_parse (B "git-receive-pack '/it'\''s/a\'") = Some (B "it's/a\").
Proof. vm_compute. reflexivity. Qed.
Example C37_ex2 : shell_command_parse (B "git-receive-pack '/blog.git'; rm -rf /") = None.
Proof. vm_compute. reflexivity. Qed.
Example C37_ex3 : shell_command_parse (B "rm '/blog.git'") = None /\ shell_command_parse (B "git-upload-pack ''") = None
  /\ shell_command_parse (B "git-upload-pack blog.git") = None.
Proof. vm_compute. auto. Qed.
Example C37_ex4 : exists t, trace (bgr_shell (Some (B "/usr/bin/blogc-git-receiver")) (Some (B "/home/git")) (B "git-receive-pack 'a b.git'")) t (Some 0)
  /\ In (System (B "git init --bare '/home/git/repos/a b.git' > /dev/null"), true) t
  /\ In (Symlink (B "/usr/bin/blogc-git-receiver") (B "pre-receive"), true) t
  /\ In (GitShell (B "git-receive-pack '/home/git/repos/a b.git'"), true) t.
Proof.
  eexists. split.
  - refine (@T_do _ (Access _) _ false _ _ _). cbv beta iota. do 2 refine (@T_do _ _ _ true _ _ _).
    cbv beta iota. refine (@T_do _ (Access _) _ false _ _ _). cbv beta iota. do 2 refine (@T_do _ _ _ true _ _ _).
    refine (@T_do _ (Lexists _) _ true _ _ _). cbv beta iota zeta. do 2 refine (@T_do _ _ _ true _ _ _).
    refine (@T_do _ (Lexists _) _ false _ _ _). cbv beta iota zeta. do 3 refine (@T_do _ _ _ true _ _ _). apply T_ret.
  - vm_compute. intuition.
Qed.

(* ---------- C38 ---------- *)
(* the repository that is created and served *)
Definition repository (bd v : bytes) : bytes := bd ++ B "/repos/" ++ v.

(* [..] in the path leads anywhere *)
Theorem C38_refuted : exists cmd v, shell_command_parse cmd = Some v /\
  (exists t, trace (bgr_shell (Some (B "/bin/x")) (Some (B "/home/git")) cmd) t (Some 0) /\
     In (GitShell (B "git-upload-pack '" ++ repository (B "/home/git") v ++ B "'"), true) t) /\
  leads_to (repository (B "/home/git") v) = [B "etc"; B "secret.git"].
Proof.
  exists (B "git-upload-pack '../../../etc/secret.git'"), (B "../../../etc/secret.git"). split; [vm_compute; reflexivity|]. split; [|vm_compute; reflexivity].
  eexists. split.
  - do 2 refine (@T_do _ _ _ true _ _ _). apply T_ret.
  - vm_compute. auto.
Qed.
Print Assumptions C38_refuted.

(* Without [..] the repository is below the directory of repositories, and so are the
   hooks. Missing for the full property: the check that there is no [..]; symbolic links
   are not considered. *)
Theorem C38_below_partial : forall bd cmd v, shell_command_parse cmd = Some v -> no_dotdot v ->
  below (leads_to bd ++ [B "repos"]) (leads_to (repository bd v)) /\
  below (leads_to bd ++ [B "repos"]) (leads_to (repository bd v ++ B "/hooks")).
Proof.
  intros bd cmd v _ H. unfold repository. split.
  - rewrite repo_leads. apply follow_down. exact H.
  - replace ((bd ++ B "/repos/" ++ v) ++ B "/hooks") with (bd ++ B "/repos/" ++ (v ++ "/"%char :: B "hooks")) by (rewrite <- !app_assoc; reflexivity).
    rewrite repo_leads, components_app. apply follow_down. intro I. apply in_app_or in I. destruct I as [I|I]; [exact (H I)|].
    vm_compute in I. intuition discriminate.
Qed.
Print Assumptions C38_below_partial.
Example C38_ex : shell_command_parse (B "git-receive-pack 'me/blog..git'") = Some (B "me/blog..git") /\ no_dotdot (B "me/blog..git")
  /\ leads_to (repository (B "/home/git") (B "me/blog..git")) = [B "home"; B "git"; B "repos"; B "me"; B "blog..git"].
Proof. split; [vm_compute; reflexivity|]. split; [|vm_compute; reflexivity]. intro H. vm_compute in H. intuition discriminate. Qed.

(* ---------- C39 ---------- *)
(* The deployed commit is the one of the last update of master, else of main. The input
   has one line for each updated ref; bytes after the last line feed do not matter. *)
Theorem C39_deployed : forall l rest, Forall update_ok l -> ~ In LF rest ->
  hook_ref (flat_map update_src l ++ rest) =
  match pushed l (B "master") with Some v => Some v | None => pushed l (B "main") end.
Proof.
  intros l rest Hl Hr. unfold hook_ref, pre_receive_parse. rewrite hook_updates_app, hook_rest by assumption.
  set (t := fold_left _ _ _). assert (Hw : wf t) by (apply puts_wf; constructor).
  assert (N1 : no_nul (B "master")) by (intro I; vm_compute in I; intuition discriminate).
  assert (N2 : no_nul (B "main")) by (intro I; vm_compute in I; intuition discriminate).
  assert (L : forall b, no_nul b -> b <> [] -> trie_lookup t b = pushed l b).
  { intros b Hb Hne. unfold t. rewrite puts_lookup by assumption. destruct (pushed l b); [reflexivity|destruct b; reflexivity]. }
  destruct (Nat.eqb (trie_size t) 0) eqn:E.
  - apply Nat.eqb_eq in E. rewrite <- !L by (try assumption; discriminate). rewrite !empty_lookup by assumption. reflexivity.
  - rewrite <- !L by (try assumption; discriminate). reflexivity.
Qed.
Print Assumptions C39_deployed.

(* every branch that was pushed, and no other *)
Theorem C39_branches : forall l rest, Forall update_ok l -> ~ In LF rest ->
  match pre_receive_parse (flat_map update_src l ++ rest) with
  | Some t => (exists b, no_nul b /\ pushed l b <> None) /\ forall b, no_nul b -> b <> [] -> trie_lookup t b = pushed l b
  | None => forall b, no_nul b -> b <> [] -> pushed l b = None
  end.
Proof.
  intros l rest Hl Hr. unfold pre_receive_parse. rewrite hook_updates_app, hook_rest by assumption.
  set (t := fold_left _ _ _). assert (Hw : wf t) by (apply puts_wf; constructor).
  assert (L : forall b, no_nul b -> b <> [] -> trie_lookup t b = pushed l b).
  { intros b Hb Hne. unfold t. rewrite puts_lookup by assumption. destruct (pushed l b); [reflexivity|destruct b; reflexivity]. }
  destruct (Nat.eqb (trie_size t) 0) eqn:E.
  - apply Nat.eqb_eq in E. intros b Hb Hne. rewrite <- L by assumption. apply empty_lookup; assumption.
  - split; [|exact L]. apply Nat.eqb_neq in E. rewrite size_foreach in E. destruct (trie_foreach t) as [|[k d] fr] eqn:F; [exfalso; apply E; reflexivity|].
    assert (I : In (k, d) (trie_foreach t)) by (rewrite F; left; reflexivity). apply foreach_lookup in I; [|exact Hw].
    destruct I as (Hk & v & -> & Hv). exists k. split; [exact Hk|].
    destruct k as [|k1 k]; [|rewrite <- L by (try assumption; discriminate); congruence].
    exfalso. assert (Z : forall l rv, Forall update_ok l -> trie_lookup rv [] = None -> trie_lookup (fold_left (fun t u => put u t) l rv) [] = None).
    { clear. induction l as [|u l IH]; intros rv Hl H; [exact H|]. inversion Hl as [|? ? Hu Hl']; subst. cbn [fold_left]. apply IH; [exact Hl'|]. unfold put.
      destruct (_ && _) eqn:E; [|exact H]. apply andb_true_iff in E. destruct E as [E _]. apply Nat.ltb_lt in E.
      destruct Hu as (_ & _ & Hr). apply token_nn in Hr.
      rewrite trie_lookup_insert by (try apply cstr_no_nul; intros []). 
      assert (Hs : no_nul (skipn 11 (u_ref u))) by (intro J; apply Hr; rewrite <- (firstn_skipn 11 (u_ref u)); apply in_or_app; right; exact J).
      rewrite cstr_id by exact Hs. destruct (skipn 11 (u_ref u)) as [|c r] eqn:S; [|exact H].
      exfalso. pose proof (skipn_length 11 (u_ref u)) as Q. rewrite S in Q. cbn [length] in Q. lia. }
    unfold t in Hv. rewrite Z in Hv; [discriminate|exact Hl|reflexivity].
Qed.
Print Assumptions C39_branches.

Example C39_ex : hook_ref (B "000 abc refs/heads/dev
000 abd refs/heads/main
000 abe refs/heads/master
abe abf refs/heads/master
abc abg refs/tags/master
") = Some (B "abf").
Proof. vm_compute. reflexivity. Qed.
Example C39_ex_main : hook_ref (B "000 abd refs/heads/main
000 abe refs/heads/masters
") = Some (B "abd") /\ hook_ref (B "000 abe refs/heads/dev
") = None.
Proof. vm_compute. auto. Qed.
(* the deletion of a branch is an update too: the hook goes on with the null hash *)
Example C39_deletion : hook_ref (B "abc 0000000000000000000000000000000000000000 refs/heads/master
") = Some (B "0000000000000000000000000000000000000000").
Proof. vm_compute. reflexivity. Qed.
