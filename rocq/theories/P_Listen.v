(* The address on which blogc-runserver listens. *)
From Verif Require Import Base Utils UtilsProofs Content BlockSpec BlockOut ErrPrint ErrPrintSpec P_ErrPrint Listen ListenSpec.
#[local] Arguments B : simpl never.

Lemma works_dec a : (a_socket a && a_option a && a_bind a = true) <-> works a.
Proof. unfold works. destruct (a_socket a), (a_option a), (a_bind a); cbn; intuition discriminate. Qed.

Lemma held_app : forall t1 t2 h s, held h s (t1 ++ t2) = match held h s t1 with Some (h', s') => held h' s' t2 | None => None end.
Proof.
  induction t1 as [|a t1 IH]; intros t2 h s; [reflexivity|]. cbn [app]. destruct a; cbn [held];
    match goal with |- context [has ?l ?i] => destruct (has l i) end; try reflexivity; apply IH.
Qed.

(* texts that are not freed: those of earlier addresses *)
Definition below (i : nat) (h : list nat) : Prop := Forall (fun x => x < i) h.
Lemma below_has i h : below i h -> has h i = false.
Proof.
  unfold below, has. intro H. destruct (existsb _ _) eqn:E; [|reflexivity]. apply existsb_exists in E.
  destruct E as (x & I & E). apply Nat.eqb_eq in E. subst. rewrite Forall_forall in H. apply H in I. exfalso. exact (Nat.lt_irrefl _ I).
Qed.
Lemma below_drop i h : below i h -> drop (i :: h) i = h.
Proof.
  unfold drop. cbn [filter]. rewrite Nat.eqb_refl. cbn [negb]. induction h as [|x h IH]; intro H; [reflexivity|].
  inversion H; subst. cbn [filter]. destruct (Nat.eqb i x) eqn:E.
  - apply Nat.eqb_eq in E. subst. exfalso. exact (Nat.lt_irrefl _ H2).
  - cbn [negb]. f_equal. apply IH. assumption.
Qed.
Lemma has_cons i h : has (i :: h) i = true.
Proof. unfold has. cbn [existsb]. rewrite Nat.eqb_refl. reflexivity. Qed.
Lemma below_S i h : below i h -> below (S i) h.
Proof. apply Forall_impl. intros x H. apply Nat.lt_lt_succ_r. exact H. Qed.
Lemma below_cons i h : below i h -> below (S i) (i :: h).
Proof. intro H. constructor; [apply Nat.lt_succ_diag_r|apply below_S; exact H]. Qed.

Lemma drop_one i : drop [i] i = [].
Proof. unfold drop. cbn [filter]. rewrite Nat.eqb_refl. reflexivity. Qed.
Lemma has_none i : has [] i = false.
Proof. reflexivity. Qed.
Ltac go H := repeat (cbn [held app];
  first [rewrite (below_has H) | rewrite has_cons | rewrite (below_drop H) | rewrite has_none | rewrite drop_one]).

(* the loop: which address, which sockets and texts are held; [clean]: no text is left behind *)
Definition easy (a : addr) : Prop := a_socket a = true /\ a_option a = true.
Lemma loop_held : forall l i h, below i h -> l <> [] ->
  match bind_loop i l with
  | (t, Some (j, a)) => (exists h', held h [] t = Some (j :: h', [j]) /\ below j h' /\ (Forall easy l -> h' = h)) /\
      exists k, j = i + k /\ first_working l k a
  | (t, None) => (exists h', held h [] t = Some (h', []) /\ (Forall easy l -> h' = h)) /\ Forall (fun a => ~ works a) l
  end.
Proof.
  induction l as [|a r IH]; intros i h H N; [congruence|]. clear N. cbn [bind_loop]. unfold works, first_working, works.
  destruct (a_socket a) eqn:E1; cbn [negb]; [destruct (a_option a) eqn:E2; cbn [negb]; [destruct (a_bind a) eqn:E3|]|].
  - split.
    + exists h. go H. repeat split; [exact H].
    + exists 0. split; [symmetry; apply Nat.add_0_r|]. exists [], r. repeat split; try assumption. constructor.
  - assert (W : ~ works a) by (unfold works; rewrite E3; intros (_ & _ & X); discriminate X).
    destruct r as [|b r].
    + split; [|constructor; [exact W|constructor]]. exists h. go H. split; reflexivity.
    + specialize (IH (S i) h (below_S H) ltac:(discriminate)). destruct (bind_loop (S i) (b :: r)) as [t [[j x]|]].
      * destruct IH as ((h' & T & L & C) & k & -> & l1 & l2 & S1 & S2 & S3 & S4). split.
        { exists h'. go H. rewrite T. repeat split; [exact L|]. intro F. inversion F; subst. apply C. assumption. }
        exists (S k). split; [rewrite Nat.add_succ_r; reflexivity|]. exists (a :: l1), l2. cbn [app length]. rewrite S1, S2.
        repeat split; try apply S3. constructor; [exact W|exact S4].
      * destruct IH as ((h' & T & C) & W'). split; [|constructor; [exact W|exact W']].
        exists h'. go H. rewrite T. split; [reflexivity|]. intro F. inversion F; subst. apply C. assumption.
  - assert (W : ~ works a) by (unfold works; rewrite E2; intros (_ & X & _); discriminate X).
    assert (Z : ~ easy a) by (unfold easy; rewrite E2; intros (_ & X); discriminate X).
    destruct r as [|b r].
    + split; [|constructor; [exact W|constructor]]. exists h. go H. split; reflexivity.
    + specialize (IH (S i) (i :: h) (below_cons H) ltac:(discriminate)). destruct (bind_loop (S i) (b :: r)) as [t [[j x]|]].
      * destruct IH as ((h' & T & L & C) & k & -> & l1 & l2 & S1 & S2 & S3 & S4). split.
        { exists h'. go H. rewrite T. repeat split; [exact L|]. intro F. inversion F; subst. contradiction. }
        exists (S k). split; [rewrite Nat.add_succ_r; reflexivity|]. exists (a :: l1), l2. cbn [app length]. rewrite S1, S2.
        repeat split; try apply S3. constructor; [exact W|exact S4].
      * destruct IH as ((h' & T & C) & W'). split; [|constructor; [exact W|exact W']].
        exists h'. go H. rewrite T. split; [reflexivity|]. intro F. inversion F; subst. contradiction.
  - assert (W : ~ works a) by (unfold works; rewrite E1; intros (X & _); discriminate X).
    assert (Z : ~ easy a) by (unfold easy; rewrite E1; intros (X & _); discriminate X).
    destruct r as [|b r].
    + split; [|constructor; [exact W|constructor]]. exists h. go H. split; reflexivity.
    + specialize (IH (S i) (i :: h) (below_cons H) ltac:(discriminate)). destruct (bind_loop (S i) (b :: r)) as [t [[j x]|]].
      * destruct IH as ((h' & T & L & C) & k & -> & l1 & l2 & S1 & S2 & S3 & S4). split.
        { exists h'. go H. rewrite T. repeat split; [exact L|]. intro F. inversion F; subst. contradiction. }
        exists (S k). split; [rewrite Nat.add_succ_r; reflexivity|]. exists (a :: l1), l2. cbn [app length]. rewrite S1, S2.
        repeat split; try apply S3. constructor; [exact W|exact S4].
      * destruct IH as ((h' & T & C) & W'). split; [|constructor; [exact W|exact W']].
        exists h'. go H. rewrite T. split; [reflexivity|]. intro F. inversion F; subst. contradiction.
Qed.

Lemma host_until_at a s : ~ In ":"%char a -> ~ In "/"%char a -> s <> [] -> (hd NUL s = ":"%char \/ hd NUL s = "/"%char) ->
  host_until (a ++ s) = (a, s).
Proof.
  intros H1 H2 N S. induction a as [|x a IH]; cbn [app host_until].
  - destruct s as [|c s]; [congruence|]. cbn [hd] in S. cbn [host_until]. destruct S as [->| ->]; reflexivity.
  - destruct (x == ":"%char) eqn:E1; [apply eqb_true in E1; subst; exfalso; apply H1; left; reflexivity|].
    destruct (x == "/"%char) eqn:E2; [apply eqb_true in E2; subst; exfalso; apply H2; left; reflexivity|].
    cbn [orb]. rewrite IH; [reflexivity| |]; intro I; [apply H1|apply H2]; right; exact I.
Qed.

(* ---------- C103 ---------- *)
(* the server is announced exactly if the first address that can be bound can be listened on; then its
   socket is the only one that is open; else the function returns with no socket open. No text or
   socket is used that is not there *)
Theorem C103_address : forall l, l <> [] ->
  match listen_on l with
  | (t, Some said) => exists i a hosts, first_working l i a /\ a_listen a = true /\ said = running_on a /\
      held [] [] t = Some (hosts, [i])
  | (t, None) => (exists hosts, held [] [] t = Some (hosts, [])) /\
      (Forall (fun a => ~ works a) l \/ exists i a, first_working l i a /\ a_listen a = false)
  end.
Proof.
  intros l N. unfold listen_on. pose proof (@loop_held l 0 [] ltac:(constructor) N) as L.
  destruct (bind_loop 0 l) as [t [[j a]|]].
  - destruct L as ((h & T & Hb & _) & k & -> & F). cbn [Nat.add] in *. destruct (a_listen a) eqn:E.
    + exists k, a, (k :: h). rewrite held_app, T. go Hb. repeat split; assumption.
    + split; [|right; exists k, a; split; assumption]. exists h. rewrite held_app, T. go Hb. reflexivity.
  - destruct L as ((h & T & _) & W). split; [exists h; exact T|left; exact W].
Qed.
Print Assumptions C103_address.

(* at most one socket is open at any time, also on the way *)
Lemma one_socket : forall l i h, below i h -> forall t1 t2, fst (bind_loop i l) = t1 ++ t2 ->
  exists h' s, held h [] t1 = Some (h', s) /\ length s <= 1.
Proof.
  induction l as [|a r IH]; intros i h H t1 t2 E; cbn [bind_loop] in E.
  { cbn [fst] in E. destruct t1; [|discriminate E]. exists h, []. split; [reflexivity|apply Nat.le_0_l]. }
  assert (K : forall did h0, below (S i) h0 -> held h [] did = Some (h0, []) ->
     (forall d1 d2, did = d1 ++ d2 -> exists h' s, held h [] d1 = Some (h', s) /\ length s <= 1) ->
     fst (let (t, x) := bind_loop (S i) r in (did ++ t, x)) = t1 ++ t2 -> exists h' s, held h [] t1 = Some (h', s) /\ length s <= 1).
  { intros did h0 B0 Hd Hp X. specialize (IH (S i) h0 B0). destruct (bind_loop (S i) r) as [t x]. cbn [fst] in X, IH.
    apply app_eq_app in X. destruct X as (m & [(-> & ->)|(-> & ->)]).
    - destruct (Hp t1 m eq_refl) as (h' & s & P & Q). exists h', s. split; assumption.
    - destruct (IH m t2 eq_refl) as (h' & s & P & Q). exists h', s. split; [|exact Q]. rewrite held_app, Hd. exact P. }
  assert (G : forall T, In T [[AHost i]; [AHost i; ASay i; AFree i]; [AHost i; ASocket i; AClose i]; [AHost i; ASocket i; ASay i; AClose i; AFree i];
      [AHost i; ASocket i]; [AHost i; ASocket i; AFree i; AClose i]] -> forall d1 d2, T = d1 ++ d2 -> exists h' s, held h [] d1 = Some (h', s) /\ length s <= 1).
  { intros T I d1 d2 X. repeat (destruct I as [<-|I]; [|]); [..|destruct I];
      repeat (destruct d1 as [|? d1]; [clear X|first [discriminate X|injection X as <- X]]);
      go H; eexists; eexists; (split; [reflexivity|apply Nat.leb_le; reflexivity]). }
  destruct (a_socket a) eqn:E1; cbn [negb] in E; [destruct (a_option a) eqn:E2; cbn [negb] in E; [destruct (a_bind a) eqn:E3|]|].
  - cbn [fst] in E. refine (G _ _ _ _ E). cbn; auto 10.
  - destruct r as [|b r]; [cbn [fst] in E; refine (G _ _ _ _ E); cbn; auto 10|].
    refine (K _ h (below_S H) _ _ E); [go H; reflexivity|apply G; cbn; auto 10].
  - destruct r as [|b r]; [cbn [fst] in E; refine (G _ _ _ _ E); cbn; auto 10|].
    refine (K _ (i :: h) (below_cons H) _ _ E); [go H; reflexivity|apply G; cbn; auto 10].
  - destruct r as [|b r]; [cbn [fst] in E; refine (G _ _ _ _ E); cbn; auto 10|].
    refine (K _ (i :: h) (below_cons H) _ _ E); [go H; reflexivity|apply G; cbn; auto 10].
Qed.
Theorem C103_one_socket : forall l t1 t2, fst (bind_loop 0 l) = t1 ++ t2 ->
  exists hosts socks, held [] [] t1 = Some (hosts, socks) /\ length socks <= 1.
Proof. intros l t1 t2. apply one_socket. constructor. Qed.
Print Assumptions C103_one_socket.

(* the full claim would be that the server runs if there is an address on which it can listen: false, as
   listen is only asked for the first that can be bound (with SO_REUSEADDR two servers can bind the same
   port, and the second one fails in listen) *)
Theorem C103_listen_refuted : exists l a t, In a l /\ works a /\ a_listen a = true /\ listen_on l = (t, None).
Proof.
  exists [Addr true (B "::1") 999 true true true false; Addr false (B "127.0.0.1") 999 true true true true],
    (Addr false (B "127.0.0.1") 999 true true true true). eexists. repeat split. right. left. reflexivity.
Qed.
Print Assumptions C103_listen_refuted.

(* the texts of the addresses are freed, or one is left, the one of the server, when socket and
   setsockopt do not fail; otherwise the text is lost (292, 307: continue without free) *)
Theorem C103_texts_partial : forall l, l <> [] -> Forall (fun a => a_socket a = true /\ a_option a = true) l ->
  match listen_on l with
  | (t, Some _) => exists i, held [] [] t = Some ([i], [i])
  | (t, None) => held [] [] t = Some ([], [])
  end.
Proof.
  intros l N F. unfold listen_on. pose proof (@loop_held l 0 [] ltac:(constructor) N) as L.
  destruct (bind_loop 0 l) as [t [[j a]|]].
  - destruct L as ((h & T & Hb & C) & _). rewrite (C F) in *. destruct (a_listen a).
    + exists j. rewrite held_app, T. go Hb. reflexivity.
    + rewrite held_app, T. go Hb. reflexivity.
  - destruct L as ((h & T & C) & _). rewrite T, (C F). reflexivity.
Qed.
Print Assumptions C103_texts_partial.
Theorem C103_texts_refuted : exists l t said, listen_on l = (t, Some said) /\ held [] [] t = Some ([1; 0], [1]).
Proof.
  exists [Addr true (B "::1") 999 false true true true; Addr false (B "127.0.0.1") 999 true true true true].
  eexists. eexists. split; reflexivity.
Qed.
Print Assumptions C103_texts_refuted.

(* what is announced is a URL from which host and port can be read *)
Theorem C103_url : forall a, (if a_v6 a then ~ In "]"%char (a_ip a) else
    ~ In ":"%char (a_ip a) /\ ~ In "/"%char (a_ip a) /\ hd NUL (a_ip a) <> "["%char /\ a_ip a <> []) ->
  exists u, running_on a = B " * Running on " ++ u /\ firstn 7 u = B "http://" /\ url u = (a_ip a, a_port a, B "/").
Proof.
  intros a H. unfold running_on.
  set (rest := (if Nat.eqb (a_port a) 80 then [] else B ":" ++ dec (N.of_nat (a_port a))) ++ B "/").
  assert (R : url_port rest = (a_port a, B "/")).
  { unfold rest. destruct (Nat.eqb_spec (a_port a) 80) as [->|_]; [reflexivity|].
    change ((B ":" ++ ?x) ++ ?y) with (":"%char :: (x ++ y)). cbn [url_port]. change (":"%char == ":"%char) with true. cbv iota.
    apply number_dec. reflexivity. }
  assert (Q : rest <> [] /\ (hd NUL rest = ":"%char \/ hd NUL rest = "/"%char)).
  { unfold rest. destruct (Nat.eqb _ _); (split; [discriminate|]); [right|left]; reflexivity. }
  exists (B "http://" ++ (if a_v6 a then B "[" ++ a_ip a ++ B "]" else a_ip a) ++ rest). split; [reflexivity|]. split; [reflexivity|].
  unfold url. change (skipn 7 (B "http://" ++ ?x)) with x. destruct (a_v6 a).
  - change ((B "[" ++ a_ip a ++ B "]") ++ rest) with ("["%char :: ((a_ip a ++ B "]") ++ rest)). rewrite <- app_assoc.
    cbn [url_host]. change ("["%char == "["%char) with true. cbv iota. change (B "]" ++ rest) with ("]"%char :: rest).
    rewrite cut_at by exact H. rewrite R. reflexivity.
  - destruct H as (H1 & H2 & H3 & H4).
    assert (E : url_host (a_ip a ++ rest) = (a_ip a, rest)).
    { rewrite <- (@host_until_at (a_ip a) rest) by (assumption || apply Q). destruct (a_ip a) as [|c x]; [congruence|].
      cbn [app url_host hd] in *. destruct (c == "["%char) eqn:E; [apply eqb_true in E; contradiction|reflexivity]. }
    rewrite E, R. reflexivity.
Qed.
Print Assumptions C103_url.

(* the first address is taken by another server, the second has no socket, the third works *)
Definition ex_addrs : list addr :=
  [Addr true (B "::1") 999 true true false true; Addr true (B "fe80::1") 999 false true true true;
   Addr false (B "127.0.0.1") 999 true true true true; Addr false (B "10.0.0.1") 999 true true true true].
Example C103_example : listen_on ex_addrs =
  ([AHost 0; ASocket 0; AFree 0; AClose 0; AHost 1; AHost 2; ASocket 2; AListen 2; ASay 2],
   Some (B " * Running on http://127.0.0.1:999/")).
Proof. vm_compute. reflexivity. Qed.
Example C103_example_v6 : running_on (Addr true (B "::1") 80 true true true true) = B " * Running on http://[::1]/" /\
  url (B "http://[::1]/") = (B "::1", 80, B "/") /\ url (B "http://127.0.0.1:999/") = (B "127.0.0.1", 999, B "/").
Proof. repeat split; vm_compute; reflexivity. Qed.
Example C103_example_fails : listen_on [Addr true (B "::1") 80 true true false true; Addr false (B "127.0.0.1") 80 true true false true]
  = ([AHost 0; ASocket 0; AFree 0; AClose 0; AHost 1; ASocket 1; ASay 1; AClose 1; AFree 1], None).
Proof. vm_compute. reflexivity. Qed.
