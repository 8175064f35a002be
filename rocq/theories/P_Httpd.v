(* C76, C77: the server and the rebuilding run side by side. *)
From Verif Require Import Base Httpd.
#[local] Open Scope nat_scope.
#[local] Arguments Nat.ltb : simpl never.

(* ---------- who owns the locks ---------- *)
Definition main_h (m : mpc) : bool := match m with M_read0 | M_unlock0 _ | M_read _ | M_unlock _ _ => true | _ => false end.
Definition main_r (m : mpc) : bool := match m with M_hset | M_hunlock | M_rset | M_runlock => true | _ => false end.
Definition server_h (p : spc) : bool := match p with S_set1 | S_unlock1 | S_set2 _ | S_unlock2 _ => true | _ => false end.
Definition server_r (p : spc) : bool := match p with S_sset _ | S_sunlock _ => true | _ => false end.
Definition early (m : mpc) : bool := match m with M_lock0 | M_read0 | M_unlock0 _ | M_create => true | _ => false end.
Definition owner (m p : bool) : option tid := if m then Some Main else if p then Some Server else None.
(* without signals *)
Record calm (s : state) : Prop := Calm
  { c_h : h_owner s = owner (main_h (main s)) (server_h (server s)); c_h1 : (main_h (main s) && server_h (server s)) = false;
    c_r : r_owner s = owner (main_r (main s)) (server_r (server s)); c_r1 : (main_r (main s) && server_r (server s)) = false;
    c_n : early (main s) = true -> server s = S_none; c_s : signal s = None; c_e : ended s = false }.

Lemma calm_init : calm init. Proof. split; intros; reflexivity. Qed.
Ltac go H := destruct H as [H1 H2 H3 H4 H0 H5 H6]; cbn in *; subst; cbn in *.
Ltac cases St := inversion St; subst; clear St;
  match goal with x : state |- _ => destruct x as [m p g st ho ru sta ro ins en] end; cbn in *; subst; cbn in *.
Lemma calm_step s s' : calm s -> step false s s' -> calm s'.
Proof.
  intros H St0. inversion St0 as [s0 s1 _ _ St|s0 s1 _ _ St|s0 s1 _ _ St|s0 s1 E _ _]; [| | |discriminate E]; subst; clear St0.
  - revert H. cases St; intro H; try destruct b; try destruct (Nat.ltb _ _); try destruct ru; go H; try discriminate;
      first [ specialize (H0 eq_refl); subst; cbn in *; try discriminate; split; intros; (reflexivity || discriminate)
            | destruct p; cbn in *; try discriminate; split; intros; (reflexivity || discriminate) ].
  - revert H. cases St; intro H; go H; try discriminate;
      first [ specialize (H0 eq_refl); subst; cbn in *; try discriminate; split; intros; (reflexivity || discriminate)
            | destruct p; cbn in *; try discriminate; split; intros; (reflexivity || discriminate) ].
  - revert H. cases St; intro H; go H; try discriminate; destruct m; cbn in *; try discriminate;
      try (specialize (H0 eq_refl); discriminate); split; intros; (reflexivity || discriminate).
Qed.
Lemma calm_steps s s' : calm s -> steps false s s' -> calm s'.
Proof. intros H St. induction St as [s|s1 s2 s3 _ IH St]; [exact H|]. exact (calm_step (IH H) St). Qed.

(* ---------- C77 ---------- *)
Definition can_go (s : state) : Prop := exists s', main_step s s'.
(* Without signals nothing waits for ever: the main thread can go on, at once or after
   the server's thread has done what it does while it holds a lock. *)
Theorem C77_live_partial s : steps false init s -> ~ over s ->
  can_go s \/ exists s1, server_step s s1 /\ (can_go s1 \/ exists s2, server_step s1 s2 /\ can_go s2).
Proof.
  intros R No. pose proof (calm_steps calm_init R) as H. clear R. destruct s as [m p g st ho ru sta ro ins en]. go H.
  assert (L : forall P Q : Prop, P -> P \/ Q) by tauto.
  destruct m as [| |b| |n|n|n b|n| | | | | | | | | |rv]; cbn in *.
  - specialize (H0 eq_refl). subst p. left. eexists. apply MS_lock0; reflexivity.
  - left. eexists. apply MS_read0; reflexivity.
  - left. eexists. apply (@MS_unlock0 _ b); reflexivity.
  - left. eexists. apply MS_create; reflexivity.
  - destruct p as [| | | | |x|x|x|x|x|x|x]; cbn;
      try (left; eexists; apply (@MS_lock _ n); reflexivity); right.
    + eexists. split; [apply SS_set1; reflexivity|]. right. eexists. split; [apply SS_unlock1; reflexivity|].
      eexists. apply (@MS_lock _ n); reflexivity.
    + eexists. split; [apply SS_unlock1; reflexivity|]. left. eexists. apply (@MS_lock _ n); reflexivity.
    + eexists. split; [apply (@SS_set2 _ x); reflexivity|]. right. eexists. split; [apply (@SS_unlock2 _ x); reflexivity|].
      eexists. apply (@MS_lock _ n); reflexivity.
    + eexists. split; [apply (@SS_unlock2 _ x); reflexivity|]. left. eexists. apply (@MS_lock _ n); reflexivity.
  - left. eexists. apply (@MS_read _ n); reflexivity.
  - left. eexists. apply (@MS_unlock _ n b); reflexivity.
  - left. eexists. apply (@MS_sleep _ n); reflexivity.
  - destruct ins; [left; eexists; apply MS_installed; reflexivity|].
    destruct p as [| | | | |x|x|x|x|x|x|x]; cbn;
      try (left; eexists; apply MS_hlock; reflexivity); right.
    + eexists. split; [apply (@SS_sset _ x); reflexivity|]. right. eexists. split; [apply (@SS_sunlock _ x); reflexivity|].
      eexists. apply MS_hlock; reflexivity.
    + eexists. split; [apply (@SS_sunlock _ x); reflexivity|]. left. eexists. apply MS_hlock; reflexivity.
  - left. eexists. apply MS_hset; reflexivity.
  - left. eexists. apply MS_hunlock; reflexivity.
  - left. eexists. apply MS_install; reflexivity.
  - destruct p as [| | | | |x|x|x|x|x|x|x]; cbn;
      try (left; eexists; apply MS_rlock; reflexivity); right.
    + eexists. split; [apply (@SS_sset _ x); reflexivity|]. right. eexists. split; [apply (@SS_sunlock _ x); reflexivity|].
      eexists. apply MS_rlock; reflexivity.
    + eexists. split; [apply (@SS_sunlock _ x); reflexivity|]. left. eexists. apply MS_rlock; reflexivity.
  - left. eexists. apply MS_rset; reflexivity.
  - left. eexists. apply MS_runlock; reflexivity.
  - left. eexists. apply MS_loop; reflexivity.
  - left. eexists. apply MS_turn; reflexivity.
  - exfalso. apply No. right. exists rv. reflexivity.
Qed.
Print Assumptions C77_live_partial.

(* ---------- C76 ---------- *)
Definition in_loop (m : mpc) : Prop := m = M_loop \/ m = M_turn.
(* The server ends while the main thread is in its loop: whatever happens then, the main
   thread does not begin another turn, and it returns the status of the server (or that of
   ^C, if it is pressed as well). *)
Theorem C76_stops_partial signals s rv s1 : server s = S_sset rv -> in_loop (main s) ->
  step signals s s1 -> server s1 = S_sunlock rv ->
  forall s2, steps signals s1 s2 ->
    running s2 = false /\ (main s2 = main s1 \/ main s2 = M_loop \/ exists x, main s2 = M_return x)
    /\ forall x, main s2 = M_return x -> x = rv \/ (signals = true /\ x = sigint).
Proof.
  intros Hs Hm St Hs1.
  assert (I0 : running s1 = false /\ (status s1 = rv \/ (signals = true /\ status s1 = sigint)) /\ in_loop (main s1)
    /\ (server s1 = S_sunlock rv \/ exists x, server s1 = S_end x)).
  { inversion St as [x y _ _ K|x y _ _ K|x y _ _ K|x y _ _ K]; subst; clear St.
    - exfalso. cases K; destruct Hm; discriminate.
    - exfalso. cases K; destruct Hm; discriminate.
    - revert Hs Hs1 Hm. cases K; intros Hs Hs1 Hm; try discriminate. inversion Hs; subst. auto.
    - exfalso. cases K; try discriminate. destruct kills; discriminate. }
  clear Hs Hm St Hs1.
  intros s2 R.
  assert (K : running s2 = false /\ (status s2 = rv \/ (signals = true /\ status s2 = sigint)) /\
    (main s2 = main s1 \/ main s2 = M_loop \/ exists x, main s2 = M_return x /\ (x = rv \/ (signals = true /\ x = sigint)))
    /\ (server s2 = S_sunlock rv \/ exists x, server s2 = S_end x)).
  { induction R as [a0|a b d R IH St].
    - destruct I0 as (A & C & D & E). repeat split; auto.
    - destruct (IH I0) as (A & C & D & E). clear IH R.
      assert (Dl : in_loop (main b) \/ exists x, main b = M_return x /\ (x = rv \/ (signals = true /\ x = sigint))).
      { destruct I0 as (_ & _ & [Z|Z] & _); destruct D as [D|[D|D]]; rewrite ?Z in D; unfold in_loop; auto. }
      inversion St as [x y _ _ K|x y _ _ K|x y _ _ K|x y Hsig _ K]; subst; clear St.
      + cases K; try (exfalso; destruct Dl as [[X|X]|(x & X & _)]; discriminate).
        * repeat split; auto. right. right. eexists. split; [reflexivity|exact C].
        * repeat split; auto.
      + cases K; exfalso; destruct Dl as [[X|X]|(x & X & _)]; discriminate.
      + cases K; try (exfalso; destruct E as [X|(x & X)]; discriminate). repeat split; auto. right. eexists. reflexivity.
      + cases K; try destruct kills; cbn; repeat split; auto. }
  destruct K as (A & C & D & E). split; [exact A|]. split.
  - destruct D as [D|[D|(x & D & _)]]; eauto.
  - intros x Hx. destruct I0 as (_ & _ & [Z|Z] & _); destruct D as [D|[D|(y & D & Hy)]]; rewrite ?Z in D; try congruence;
      rewrite Hx in D; inversion D; subst; exact Hy.
Qed.
Print Assumptions C76_stops_partial.

(* ^C while the main thread is in its loop: once the handler has done what it does, the
   main thread does not begin another turn; it returns 130, or the status of the server if
   that ended as well *)
Theorem C77_interrupted s t s1 : signal s = Some (t, G_set) -> in_loop (main s) -> step true s s1 -> signal s1 = Some (t, G_raise) ->
  forall s2, steps true s1 s2 ->
    running s2 = false /\ (main s2 = main s1 \/ main s2 = M_loop \/ exists x, main s2 = M_return x)
    /\ forall x, main s2 = M_return x -> x = sigint \/ server s2 = S_sunlock x \/ server s2 = S_end x.
Proof.
  intros Hs Hm St Hs1.
  assert (I0 : running s1 = false /\ status s1 = sigint /\ in_loop (main s1)).
  { inversion St as [x y _ F K|x y _ F K|x y _ F K|x y _ _ K]; subst; clear St.
    - exfalso. cases K; congruence.
    - exfalso. cases K; congruence.
    - exfalso. cases K; congruence.
    - revert Hs Hs1 Hm. cases K; intros Hs Hs1 Hm; try discriminate; try congruence; auto. }
  clear Hs Hm St Hs1. intros s2 R.
  assert (K : running s2 = false /\ (status s2 = sigint \/ server s2 = S_sunlock (status s2) \/ server s2 = S_end (status s2)) /\
    (main s2 = main s1 \/ main s2 = M_loop \/ exists x, main s2 = M_return x /\ (x = sigint \/ server s2 = S_sunlock x \/ server s2 = S_end x))).
  { induction R as [a0|a b d R IH St].
    - destruct I0 as (A & C & D). auto.
    - destruct (IH I0) as (A & C & D). clear IH R.
      assert (Dl : in_loop (main b) \/ exists x, main b = M_return x).
      { destruct I0 as (_ & _ & [Z|Z]); destruct D as [D|[D|(x & D & _)]]; rewrite ?Z in D; unfold in_loop; eauto. }
      inversion St as [x y No _ K|x y No _ K|x y No _ K|x y Hsig No K]; subst; clear St.
      + cases K; try (exfalso; destruct Dl as [[X|X]|(x & X)]; discriminate).
        * repeat split; auto. right. right. eexists. split; [reflexivity|exact C].
        * repeat split; auto.
      + cases K; exfalso; destruct Dl as [[X|X]|(x & X)]; discriminate.
      + assert (Dm : main b = main a \/ main b = M_loop).
        { destruct D as [D|[D|(x & D & _)]]; auto. destruct No. right. eauto. }
        cases K; (split; [auto|]); (split; [|tauto]); try tauto; destruct C as [C|[C|C]]; try discriminate; auto. inversion C; subst. auto.
      + assert (Dm : main b = main a \/ main b = M_loop).
        { destruct D as [D|[D|(x & D & _)]]; auto. destruct No. right. eauto. }
        cases K; try destruct kills; cbn; (split; [auto|]); (split; [|tauto]); auto. }
  destruct K as (A & C & D). split; [exact A|]. split.
  - destruct D as [D|[D|(x & D & _)]]; eauto.
  - intros x Hx. destruct I0 as (_ & _ & [Z|Z]); destruct D as [D|[D|(y & D & Hy)]]; rewrite ?Z in D; try congruence;
      rewrite Hx in D; inversion D; subst; exact Hy.
Qed.
Print Assumptions C77_interrupted.
(* and it does return, at the latest with its second step *)
Theorem C77_returns s : running s = false -> in_loop (main s) ->
  exists s1, main_step s s1 /\ (main s1 = M_return (status s) \/ exists s2, main_step s1 s2 /\ main s2 = M_return (status s)).
Proof.
  intros R [E|E].
  - eexists. split; [apply MS_loop; exact E|]. left. cbn. rewrite R. reflexivity.
  - eexists. split; [apply MS_turn; exact E|]. right. eexists. split; [apply MS_loop; reflexivity|]. cbn. rewrite R. reflexivity.
Qed.
Print Assumptions C77_returns.

(* steps of which so many are of the main thread *)
Inductive counted (signals : bool) : nat -> state -> state -> Prop :=
| CNow s : counted signals 0 s s
| CMain k s1 s2 s3 : counted signals k s1 s2 -> ~ over s2 -> free s2 Main -> main_step s2 s3 -> counted signals (S k) s1 s3
| CMore k s1 s2 s3 : counted signals k s1 s2 -> step signals s2 s3 -> counted signals k s1 s3.
(* waiting for the server to start *)
Definition waiting (m : mpc) : Prop := match m with M_lock _ | M_read _ | M_unlock _ _ | M_sleep _ => True | _ => False end.
(* how many steps the main thread has done at least when it is there *)
Definition done_at (m : mpc) : nat :=
  match m with
  | M_lock0 => 0 | M_read0 => 1 | M_unlock0 _ => 2 | M_create => 3
  | M_lock n => 4 + 4 * n | M_read n => 5 + 4 * n | M_unlock n _ => 6 + 4 * n | M_sleep n => 7 + 4 * n
  | _ => 0
  end.
Definition begun (m : mpc) : Prop := waiting m \/ early m = true.
Definition count_ok (m : mpc) : Prop := match m with M_lock n | M_read n | M_unlock n _ | M_sleep n => n <= 100 | _ => True end.
Definition begun_at (m : mpc) (k : nat) : Prop := begun m -> k <= done_at m /\ count_ok m.
Lemma counts signals k s : counted signals k init s -> begun_at (main s) k.
Proof.
  remember init as s0 eqn:E0. induction 1 as [s|k s1 s2 s3 H IH No F K|k s1 s2 s3 H IH K]; subst.
  - intros _. cbn. lia.
  - specialize (IH eq_refl). clear H No F. unfold begun_at in *. revert IH. cases K; intros IH Hb;
      try (destruct Hb as [[]|Hb]; discriminate Hb).
    all: try (destruct b; cbn in *).
    all: try (destruct ru; cbn in *).
    all: try (destruct Hb as [[]|Hb]; discriminate Hb).
    all: try (destruct IH as [IH1 IH2]; [unfold begun; cbn; auto|]; cbn in *; lia).
    all: destruct (Nat.ltb 100 (S n)) eqn:E; [destruct Hb as [[]|Hb]; discriminate Hb|]; apply Nat.ltb_ge in E;
      destruct IH as [IH1 IH2]; [unfold begun; cbn; auto|]; cbn in *; lia.
  - specialize (IH eq_refl). clear H. unfold begun_at in *. inversion K as [x y _ _ J|x y _ _ J|x y _ _ J|x y Hsig _ J]; subst; clear K.
    + revert IH. cases J; intros IH Hb.
      all: try (destruct Hb as [[]|Hb]; discriminate Hb).
      all: try (destruct b; cbn in *).
      all: try (destruct ru; cbn in *).
      all: try (destruct Hb as [[]|Hb]; discriminate Hb).
      all: try (destruct IH as [IH1 IH2]; [unfold begun; cbn; auto|]; cbn in *; lia).
      all: destruct (Nat.ltb 100 (S n)) eqn:E; [destruct Hb as [[]|Hb]; discriminate Hb|]; apply Nat.ltb_ge in E;
        destruct IH as [IH1 IH2]; [unfold begun; cbn; auto|]; cbn in *; lia.
    + revert IH. cases J; intros IH Hb; destruct Hb as [[]|Hb]; discriminate Hb.
    + revert IH. cases J; auto.
    + revert IH. cases J; try destruct kills; auto.
Qed.
(* the wait for the server to start ends: the main thread does at most 407 steps in it,
   with its 101 pauses of a tenth of a second *)
Theorem C77_wait signals k s : counted signals k init s -> waiting (main s) -> k <= 407.
Proof.
  intros H W. destruct (counts H) as [H1 H2]; [left; exact W|]. destruct (main s); cbn in *; try destruct W; lia.
Qed.
Print Assumptions C77_wait.

(* ---------- executions ---------- *)
Lemma first_step b s1 s2 s3 : step b s1 s2 -> steps b s2 s3 -> steps b s1 s3.
Proof. intros H R. induction R as [s|x y z R IH St]; [eapply More; [apply Now|exact H]|]. eapply More; [exact (IH H)|exact St]. Qed.
Lemma steps_app b s1 s2 s3 : steps b s1 s2 -> steps b s2 s3 -> steps b s1 s3.
Proof. intros H R. induction R as [s|x y z R IH St]; [exact H|]. eapply More; [exact (IH H)|exact St]. Qed.
Ltac on := cbn [set_main set_server set_signal set_starting set_h set_running set_status set_r set_installed set_ended
                main server signal starting h_owner running status r_owner installed ended init Nat.ltb Nat.leb].
Ltac doing K C := eapply first_step; [apply C; [intros [X|(x & X)]; discriminate|split; [reflexivity|exact I]|eapply K; reflexivity]|]; on.
Ltac mn K := doing K By_main. Ltac sv K := doing K By_server.

(* a site that is being served *)
Definition serving : state := State M_turn S_exec None true None true 0 None true false.
Lemma serving_reached : steps false init serving.
Proof.
  unfold init, serving. mn MS_lock0. mn MS_read0. mn MS_unlock0. mn MS_create. sv SS_lock1. sv SS_set1. sv SS_unlock1.
  mn MS_lock. mn MS_read. mn MS_unlock. mn MS_hlock. mn MS_hset. mn MS_hunlock. mn MS_install. mn MS_rlock. mn MS_rset. mn MS_runlock.
  mn MS_loop. apply Now.
Qed.
(* it satisfies the conditions of C76 later *)
Example C76_ex : exists s s1, steps false init s /\ server s = S_sset 7 /\ in_loop (main s) /\ step false s s1 /\ server s1 = S_sunlock 7.
Proof.
  eexists. eexists. split; [|split; [|split; [|split]]].
  - eapply steps_app; [apply serving_reached|]. unfold serving. eapply first_step.
    { apply By_server; [intros [X|(x & X)]; discriminate|split; [reflexivity|exact I]|apply (@SS_exec _ 7); reflexivity]. }
    on. sv SS_lock2. sv SS_set2. sv SS_unlock2. sv SS_slock. apply Now.
  - reflexivity.
  - right. reflexivity.
  - apply By_server; [intros [X|(x & X)]; discriminate|split; [reflexivity|exact I]|eapply SS_sset; reflexivity].
  - reflexivity.
Qed.

(* ^C while a site is being served *)
Example C77_ex : exists s s1, steps true init s /\ signal s = Some (Main, G_set) /\ in_loop (main s) /\ step true s s1 /\ signal s1 = Some (Main, G_raise).
Proof.
  assert (R : forall a b, steps false a b -> steps true a b).
  { intros a b R. induction R as [x|x y z R IH St]; [apply Now|]. eapply More; [exact IH|].
    inversion St; subst; [apply By_main|apply By_failure|apply By_server|discriminate]; assumption. }
  eexists. eexists. split; [|split; [|split; [|split]]].
  - eapply More; [eapply More; [apply R, serving_reached|]|].
    + apply By_signal; [reflexivity|intros [X|(x & X)]; discriminate|apply GS_main; reflexivity].
    + apply By_signal; [reflexivity|intros [X|(x & X)]; discriminate|]. apply (@GS_lock _ Main); reflexivity.
  - reflexivity.
  - right. reflexivity.
  - apply By_signal; [reflexivity|intros [X|(x & X)]; discriminate|apply (@GS_set _ Main); reflexivity].
  - reflexivity.
Qed.
(* a server that does not start: the main thread pauses once *)
Example C77_wait_ex : exists s, counted false 8 init s /\ main s = M_lock 1.
Proof.
  eexists. split.
  - eapply CMain; [eapply CMain; [eapply CMain; [eapply CMain; [eapply CMain; [eapply CMain; [eapply CMain; [eapply CMain; [apply CNow|..]|..]|..]|..]|..]|..]|..]|..].
    { intros [X|(x & X)]; discriminate. } { split; [reflexivity|exact I]. } { apply MS_lock0; reflexivity. }
    { intros [X|(x & X)]; discriminate. } { split; [reflexivity|exact I]. } { apply MS_read0; reflexivity. }
    { intros [X|(x & X)]; discriminate. } { split; [reflexivity|exact I]. } { eapply MS_unlock0; reflexivity. }
    { intros [X|(x & X)]; discriminate. } { split; [reflexivity|exact I]. } { apply MS_create; reflexivity. }
    { intros [X|(x & X)]; discriminate. } { split; [reflexivity|exact I]. } { eapply MS_lock; reflexivity. }
    { intros [X|(x & X)]; discriminate. } { split; [reflexivity|exact I]. } { eapply MS_read; reflexivity. }
    { intros [X|(x & X)]; discriminate. } { split; [reflexivity|exact I]. } { eapply MS_unlock; reflexivity. }
    { intros [X|(x & X)]; discriminate. } { split; [reflexivity|exact I]. } { eapply MS_sleep; reflexivity. }
  - reflexivity.
Qed.

(* If the server fails at once, the main thread may not notice: it goes on for ever
   without a server. *)
Definition orphan (s : state) : Prop :=
  running s = true /\ in_loop (main s) /\ signal s = None /\ ended s = false /\ exists rv, server s = S_end rv.
Theorem C76_refuted : exists s, steps false init s /\ server s = S_end 1 /\ forall s', steps false s s' -> ~ over s' /\ exists s2, step false s' s2.
Proof.
  exists (State M_loop (S_end 1) None false None true 1 None true false). split; [|split; [reflexivity|]].
  - unfold init. mn MS_lock0. mn MS_read0. mn MS_unlock0. mn MS_create. sv SS_lock1. sv SS_set1. sv SS_unlock1.
    mn MS_lock. mn MS_read. mn MS_unlock.
    eapply first_step; [apply By_server; [intros [X|(x & X)]; discriminate|split; [reflexivity|exact I]|apply (@SS_exec _ 1); reflexivity]|]. on.
    sv SS_lock2. sv SS_set2. sv SS_unlock2. sv SS_slock. sv SS_sset. sv SS_sunlock.
    mn MS_hlock. mn MS_hset. mn MS_hunlock. mn MS_install. mn MS_rlock. mn MS_rset. mn MS_runlock. apply Now.
  - assert (K : forall s', steps false (State M_loop (S_end 1) None false None true 1 None true false) s' -> orphan s').
    { intros s' R. set (z := State M_loop (S_end 1) None false None true 1 None true false) in R.
      assert (Z : orphan z) by (unfold orphan, in_loop, z; cbn; eauto 10).
      clearbody z. induction R as [a0|a b d R IH St]; [exact Z|].
      destruct (IH Z) as (A & M & G & En & (rv & Sv)). clear IH R Z.
      inversion St as [x y _ _ K|x y _ _ K|x y _ _ K|x y Hsig _ K]; subst; clear St; [| | |discriminate Hsig].
      - cases K; try (exfalso; destruct M; discriminate); unfold orphan, in_loop; cbn; eauto 10.
      - cases K; exfalso; destruct M; discriminate.
      - cases K; discriminate. }
    intros s' R. destruct (K s' R) as (A & M & G & En & (rv & Sv)). split.
    + intros [X|(x & X)]; [congruence|]. destruct M; congruence.
    + destruct M as [M|M]; eexists; (apply By_main; [intros [X|(x & X)]; congruence|split; [exact En|rewrite G; exact I]|]);
        [apply MS_loop; exact M|apply MS_turn; exact M].
Qed.
Print Assumptions C76_refuted.

(* ^C while the main thread holds the lock: it waits for itself, and nothing that happens
   later ends the program. *)
Theorem C77_refuted : exists s, steps true init s /\ server s = S_exec /\ forall s', steps true s s' -> ~ over s' /\ main s' = main s.
Proof.
  set (s0 := State M_runlock S_exec (Some (Main, G_lock)) true None true 0 (Some Main) true false).
  exists s0. split; [|split; [reflexivity|]].
  - unfold init. mn MS_lock0. mn MS_read0. mn MS_unlock0. mn MS_create. sv SS_lock1. sv SS_set1. sv SS_unlock1.
    mn MS_lock. mn MS_read. mn MS_unlock. mn MS_hlock. mn MS_hset. mn MS_hunlock. mn MS_install. mn MS_rlock. mn MS_rset.
    eapply first_step; [apply By_signal; [reflexivity|intros [X|(x & X)]; discriminate|apply GS_main; reflexivity]|]. on. apply Now.
  - intros s' R.
    assert (K : main s' = M_runlock /\ signal s' = Some (Main, G_lock) /\ r_owner s' = Some Main /\ ended s' = false /\ server_r (server s') = false).
    { assert (Z : main s0 = M_runlock /\ signal s0 = Some (Main, G_lock) /\ r_owner s0 = Some Main /\ ended s0 = false
                     /\ server_r (server s0) = false) by (cbn; auto).
      clearbody s0. induction R as [a0|a b d R IH St]; [exact Z|].
      destruct (IH Z) as (A & G & O & En & Sr). clear IH R Z.
      inversion St as [x y _ F K|x y _ F K|x y _ _ K|x y Hsig _ K]; subst; clear St.
      - destruct F as [_ F]. rewrite G in F. destruct F.
      - destruct F as [_ F]. rewrite G in F. destruct F.
      - cases K; try discriminate; repeat split; congruence.
      - cases K; congruence. }
    destruct K as (A & G & O & En & _). split; [|exact A]. intros [X|(x & X)]; congruence.
Qed.
Print Assumptions C77_refuted.
