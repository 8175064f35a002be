(* C75: what must have happened before git serves a repository. *)
From Verif Require Import Base Utils Effects Receiver ReceiverSpec ReceiverProofs P_Receiver.
#[local] Arguments B : simpl never.

(* calls that only look *)
Definition looks (a : scall) : Prop := match a with Access _ | Lexists _ => True | _ => False end.
(* the bytes of the buffer for the command, with the NUL *)
Definition buffer : nat := 4096.

(* nothing that does something failed *)
Definition fine (h : list (scall * bool)) : Prop := forall a b, In (a, b) h -> looks a \/ b = true.
Definition then_ (h : list (scall * bool)) (a : scall) (ok : bool) : list (scall * bool) := h ++ [(a, ok)].
Lemma stated_split h t a ok t1 t2 : t = t1 ++ (a, ok) :: t2 -> In (h ++ t1, a) (stated then_ h t).
Proof.
  intros ->. revert h. induction t1 as [|[b o] t1 IH]; intro h; cbn [app stated].
  - left. rewrite app_nil_r. reflexivity.
  - right. specialize (IH (then_ h b o)). unfold then_ at 1 in IH. rewrite <- app_assoc in IH. exact IH.
Qed.

(* Git runs only after every earlier step succeeded and with a command that fits into the
   buffer; to accept a push only in a repository that exists, with both hooks made to
   point to the login shell. *)
Theorem C75_hooks : forall self bd cmd v t r t1 c ok t2, shell_command_parse cmd = Some v ->
  trace (bgr_shell (Some self) (Some bd) cmd) t r -> t = t1 ++ (GitShell c, ok) :: t2 ->
  fine t1 /\ length c < buffer /\ (exists t0, t1 = t0 ++ [(Chdir bd, true)]) /\
  ((exists rest, cmd = B "git-receive-pack" ++ SP :: rest) ->
     let repo := bd ++ B "/repos/" ++ v in
     (In (Access repo, true) t1 \/ exists i, In (System (B "git init --bare " ++ shell_quote (Some repo) ++ i), true) t1) /\
     exists h1 h2 h3 h4, t1 = h1 ++ (Chdir repo, true) :: h2 ++ (Chdir (B "hooks"), true) :: h3 ++ (Symlink self (B "pre-receive"), true) :: h4 /\
       In (Symlink self (B "post-receive"), true) h4).
Proof.
  intros self bd cmd v t r t1 c ok t2 Hp Ht E.
  set (repo := bd ++ B "/repos/" ++ v).
  set (Q := fun (h : list (scall * bool)) (a : scall) => match a with
    | GitShell c =>
       fine h /\ length c < buffer /\ (exists t0, h = t0 ++ [(Chdir bd, true)]) /\
       ((exists rest, cmd = B "git-receive-pack" ++ SP :: rest) ->
         (In (Access repo, true) h \/ exists i, In (System (B "git init --bare " ++ shell_quote (Some repo) ++ i), true) h) /\
         exists h1 h2 h3 h4, h = h1 ++ (Chdir repo, true) :: h2 ++ (Chdir (B "hooks"), true) :: h3 ++ (Symlink self (B "pre-receive"), true) :: h4 /\
           In (Symlink self (B "post-receive"), true) h4)
    | _ => True end).
  assert (K : only_in then_ Q [] (bgr_shell (Some self) (Some bd) cmd)).
  { unfold bgr_shell. rewrite Hp. fold repo. set (q := shell_quote (Some repo)).
    assert (G : forall h, fine h ->
      ((exists rest, cmd = B "git-receive-pack" ++ SP :: rest) ->
         (In (Access repo, true) h \/ exists i, In (System (B "git init --bare " ++ q ++ i), true) h) /\
         exists h1 h2 h3 h4, h = h1 ++ (Chdir repo, true) :: h2 ++ (Chdir (B "hooks"), true) :: h3 ++ (Symlink self (B "pre-receive"), true) :: h4 /\
           In (Symlink self (B "post-receive"), true) h4) ->
      only_in then_ Q h (git_exec bd cmd q)).
    { intros h H1 H2. unfold git_exec, must. cbn [only_in]. split; [exact I|]. split; [|exact I].
      destruct (Nat.ltb 4096 (length (first_word cmd) + length q + 2)) eqn:El; [exact I|]. apply Nat.ltb_ge in El.
      cbn [only_in]. split; [|split; exact I]. cbn [Q]. unfold then_. split; [|split; [|split]].
      - intros a b X. apply in_app_or in X. destruct X as [X|[X|[]]]; [exact (H1 _ _ X)|]. inversion X; subst. right. reflexivity.
      - rewrite !app_length. change (length [SP]) with 1. unfold buffer. lia.
      - exists h. reflexivity.
      - intro X. destruct (H2 X) as ([A|(i & A)] & h1 & h2 & h3 & h4 & -> & D).
        + split; [left; apply in_or_app; left; exact A|]. exists h1, h2, h3, (h4 ++ [(Chdir bd, true)]).
          split; [repeat (rewrite <- app_assoc; cbn [app]); reflexivity|]. apply in_or_app. left. exact D.
        + split; [right; exists i; apply in_or_app; left; exact A|]. exists h1, h2, h3, (h4 ++ [(Chdir bd, true)]).
          split; [repeat (rewrite <- app_assoc; cbn [app]); reflexivity|]. apply in_or_app. left. exact D. }
    destruct (beq (firstn 11 cmd) (B "git-upload-")) eqn:Eu.
    { apply G; [intros a b []|]. intros (rest & ->). exfalso. vm_compute in Eu. discriminate Eu. }
    assert (R : forall name k h, (forall mid, fine mid -> only_in then_ Q (h ++ mid ++ [(Symlink self name, true)]) k) ->
      only_in then_ Q h (relink self name k)).
    { intros name k h Hk. unfold relink, must. cbn [only_in]. unfold then_. split; [exact I|]. split.
      - split; [exact I|]. split; [|exact I]. split; [exact I|]. split; [|exact I].
        rewrite <- !app_assoc. apply (Hk [(Lexists name, true); (Unlink name, true)]).
        intros a b [X|[X|[]]]; inversion X; subst; [left; exact I|right; reflexivity].
      - split; [exact I|]. split; [|exact I]. rewrite <- !app_assoc. apply (Hk [(Lexists name, false)]).
        intros a b [X|[]]; inversion X; subst; left; exact I. }
    assert (Z : forall h, fine h ->
      (In (Access repo, true) h \/ exists i, In (System (B "git init --bare " ++ q ++ i), true) h) ->
      only_in then_ Q h (must (Chdir repo)
                (let inside := must (Chdir (B "hooks"))
                                 (relink self (B "pre-receive") (relink self (B "post-receive") (git_exec bd cmd q))) in
                 Do (Access (B "hooks")) (fun there => if there then inside else must (Mkdir (B "hooks")) inside)))).
    { intros h H1 H2.
      assert (Y : forall mid, fine mid -> only_in then_ Q (h ++ (Chdir repo, true) :: mid)
         (must (Chdir (B "hooks")) (relink self (B "pre-receive") (relink self (B "post-receive") (git_exec bd cmd q))))).
      { intros mid M1. unfold must. cbn [only_in]. split; [exact I|]. split; [|exact I]. apply R. intros m2 M2. apply R.
        intros m3 M3. unfold then_. apply G.
        - intros a b X. repeat (rewrite <- app_assoc in X; cbn [app] in X). apply in_app_or in X. destruct X as [X|[X|X]]; [exact (H1 _ _ X)|inversion X; right; reflexivity|].
          apply in_app_or in X. destruct X as [X|[X|X]]; [exact (M1 _ _ X)|inversion X; right; reflexivity|].
          apply in_app_or in X. destruct X as [X|[X|X]]; [exact (M2 _ _ X)|inversion X; right; reflexivity|].
          apply in_app_or in X. destruct X as [X|[X|[]]]; [exact (M3 _ _ X)|inversion X; right; reflexivity].
        - intros _. split.
          + destruct H2 as [H2|(i & H2)]; [left|right; exists i]; repeat (rewrite <- app_assoc; cbn [app]); apply in_or_app; left; exact H2.
          + exists h, mid, m2, (m3 ++ [(Symlink self (B "post-receive"), true)]).
            split; [repeat (rewrite <- app_assoc; cbn [app]); reflexivity|]. apply in_or_app. right. left. reflexivity. }
      unfold must at 1. cbv zeta. cbn [only_in]. split; [exact I|]. split; [|exact I]. cbn [only_in]. split; [exact I|].
      unfold then_ at 2 3 5 6. split.
      - rewrite <- !app_assoc. apply (Y [(Access (B "hooks"), true)]). intros a b [X|[]]; inversion X; subst; left; exact I.
      - unfold must at 1. cbn [only_in]. split; [exact I|]. split; [|exact I]. unfold then_ at 2. rewrite <- !app_assoc.
        apply (Y [(Access (B "hooks"), false); (Mkdir (B "hooks"), true)]).
        intros a b [X|[X|[]]]; inversion X; subst; [left; exact I|right; reflexivity]. }
    cbn [only_in]. split; [exact I|]. split.
    - apply Z; [intros a b [X|[]]; inversion X; subst; left; exact I|]. left. left. reflexivity.
    - unfold must at 1. cbn [only_in]. split; [exact I|]. split; [|exact I]. apply Z.
      + intros a b [X|[X|[]]]; inversion X; subst; [left; exact I|right; reflexivity].
      + right. exists (B " > /dev/null"). right. left. reflexivity. }
  pose proof (@only_in_trace _ _ then_ Q _ _ _ Ht [] K) as F. rewrite Forall_forall in F.
  exact (F _ (@stated_split [] t (GitShell c) ok t1 t2 E)).
Qed.
Print Assumptions C75_hooks.
Example C75_ex : exists cmd v t t1 c ok t2, shell_command_parse cmd = Some v /\
  trace (bgr_shell (Some (B "/usr/bin/blogc-git-receiver")) (Some (B "/home/git")) cmd) t (Some 0) /\ t = t1 ++ (GitShell c, ok) :: t2 /\
  exists rest, cmd = B "git-receive-pack" ++ SP :: rest.
Proof.
  destruct C37_ex4 as (t & H1 & _ & _ & H2). apply in_split in H2. destruct H2 as (t1 & t2 & ->).
  exists (B "git-receive-pack 'a b.git'"), (B "a b.git"). do 5 eexists. split; [vm_compute; reflexivity|]. split; [exact H1|].
  split; [reflexivity|]. exists (B "'a b.git'"). reflexivity.
Qed.
