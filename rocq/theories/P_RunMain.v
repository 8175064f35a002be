(* The command line of blogc-runserver (C87). *)
From Coq Require Import ZArith Lia.
From Verif Require Import Base Utils Datetime Source Loader LoaderProofs BlockSpec RunMain RunMainSpec.
#[local] Open Scope nat_scope.
#[local] Arguments B : simpl never.

Lemma decimal_strtoul n s : decimal n s -> strtoul s = if (2 ^ 64 <=? Z.of_nat n)%Z then (2 ^ 64 - 1)%Z else Z.of_nat n.
Proof.
  intro H. destruct (decimal_digits H) as (c & r & E & Hc & V). destruct (digit_facts Hc) as (S1 & S2 & S3). unfold strtoul.
  rewrite E in *. cbn [skip_space]. rewrite S1. cbn iota. rewrite S2, S3. cbn iota. rewrite V.
  destruct (Z.leb_spec (2 ^ 64) (Z.of_nat n)); [reflexivity|]. apply Z.mod_small. lia.
Qed.

(* one option is read *)
Lemma read_host h w r o : option_words "t" h w -> serve_args (w ++ r) o = serve_args r (SOpts (Some h) (s_port o) (s_docroot o) (s_threads o)).
Proof. intros [|Hn]; [reflexivity|]. destruct h; [contradiction|reflexivity]. Qed.
Lemma read_port h w r o : option_words "p" h w -> serve_args (w ++ r) o = serve_args r (SOpts (s_host o) (Some h) (s_docroot o) (s_threads o)).
Proof. intros [|Hn]; [reflexivity|]. destruct h; [contradiction|reflexivity]. Qed.
Lemma read_threads h w r o : option_words "m" h w -> serve_args (w ++ r) o = serve_args r (SOpts (s_host o) (s_port o) (s_docroot o) (strtoul h)).
Proof. intros [|Hn]; [reflexivity|]. destruct h; [contradiction|reflexivity]. Qed.
Lemma read_root d r o : ~ dashed d -> serve_args (d :: r) o =
  match s_docroot o with Some _ => Ok (Datatypes.inr 1) | None => serve_args r (SOpts (s_host o) (s_port o) (Some d) (s_threads o)) end.
Proof.
  intro H. destruct d as [|c d]; [reflexivity|]. assert (c <> "-"%char) by (intros ->; apply H; eexists; reflexivity).
  cbn [serve_args]. destruct c as [[] [] [] [] [] [] [] []]; try reflexivity. contradiction.
Qed.

(* where the options stand after the items of a line *)
Definition value (n : nat) : Z := if (2 ^ 64 <=? Z.of_nat n)%Z then (2 ^ 64 - 1)%Z else Z.of_nat n.
Definition after {A} (f : item -> option A) (a : option A) (l : list item) : option A :=
  fold_left (fun acc i => match f i with Some v => Some v | None => acc end) l a.
Lemma read_line l w : line l w -> forall o,
  let thr := match after (fun i => match i with I_threads h => Some (value h) | _ => None end) (Some (s_threads o)) l with Some z => z | None => 0%Z end in
  match s_docroot o, roots l with
  | None, [] => serve_args w o = Ok (Datatypes.inl (SOpts (after (fun i => match i with I_host h => Some h | _ => None end) (s_host o) l)
                  (after (fun i => match i with I_port h => Some h | _ => None end) (s_port o) l) None thr))
  | None, [d] => serve_args w o = Ok (Datatypes.inl (SOpts (after (fun i => match i with I_host h => Some h | _ => None end) (s_host o) l)
                  (after (fun i => match i with I_port h => Some h | _ => None end) (s_port o) l) (Some d) thr))
  | Some d, [] => serve_args w o = Ok (Datatypes.inl (SOpts (after (fun i => match i with I_host h => Some h | _ => None end) (s_host o) l)
                  (after (fun i => match i with I_port h => Some h | _ => None end) (s_port o) l) (Some d) thr))
  | _, _ => serve_args w o = Ok (Datatypes.inr 1)
  end.
Proof.
  induction 1 as [|i l a r Hs Hl IH]; intro o.
  - destruct o as [h p [d|] t]; reflexivity.
  - destruct Hs as [h w Hw|h w Hw|n s w Hd Hw|d Hd]; cbn [roots flat_map app after fold_left].
    + rewrite (read_host _ _ Hw). apply (IH (SOpts (Some h) (s_port o) (s_docroot o) (s_threads o))).
    + rewrite (read_port _ _ Hw). apply (IH (SOpts (s_host o) (Some h) (s_docroot o) (s_threads o))).
    + rewrite (read_threads _ _ Hw), (decimal_strtoul Hd). apply (IH (SOpts (s_host o) (s_port o) (s_docroot o) (value n))).
    + rewrite (read_root _ _ Hd). destruct o as [h p [d0|] t]; cbn [s_docroot s_host s_port s_threads] in *; [reflexivity|].
      pose proof (IH (SOpts h p (Some d) t)) as K. cbn [s_docroot s_host s_port s_threads] in K. exact K.
Qed.

Lemma threads_value l : match after (fun i => match i with I_threads h => Some (value h) | _ => None end) (Some 20%Z) l with Some z => z | None => 0%Z end = value (threads_of l).
Proof.
  unfold threads_of, last_of. change 20%Z with (value 20). 
  assert (G : forall (l : list item) a, after (fun i => match i with I_threads h => Some (value h) | _ => None end) (option_map value a) l
     = option_map value (fold_left (fun acc i => match (match i with I_threads h => Some h | _ => None end) with Some v => Some v | None => acc end) l a)).
  { induction l0 as [|i l0 IH]; intro a; [reflexivity|]. cbn [after fold_left]. destruct i; try apply (IH a). apply (IH (Some n)). }
  pose proof (G l None) as G0.
  assert (H : forall (l : list item) d, (exists z, after (fun i => match i with I_threads h => Some (value h) | _ => None end) None l = Some z /\
                after (fun i => match i with I_threads h => Some (value h) | _ => None end) (Some d) l = Some z) \/
              (after (fun i => match i with I_threads h => Some (value h) | _ => None end) None l = None /\
                after (fun i => match i with I_threads h => Some (value h) | _ => None end) (Some d) l = Some d)).
  { clear. induction l as [|i l IH]; intro d; [right; split; reflexivity|]. cbn [after fold_left]. destruct i; try apply (IH d).
    left. destruct (IH (value n)) as [(z & E1 & E2)|(E1 & E2)]; exists (match after (fun i => match i with I_threads h => Some (value h) | _ => None end) (Some (value n)) l with Some z => z | None => 0%Z end);
      unfold after in *; rewrite E2; split; reflexivity. }
  destruct (H l (value 20)) as [(z & E1 & E2)|(E1 & E2)]; rewrite E2; cbn [option_map] in G0; rewrite E1 in G0.
  - destruct (fold_left _ l None); [injection G0 as ->; reflexivity|discriminate].
  - destruct (fold_left _ l None); [discriminate|reflexivity].
Qed.

(* C87. A command line of the documented form starts the server of the site it names,
   on the last host and port given, else those of the environment, else 127.0.0.1 and
   8080, with the number of threads given last, else 20; without exactly one directory,
   or with a number of threads that is not between 1 and 1000, it fails. *)
Theorem C87_line_partial : forall host port l args, line l args ->
  (forall d, roots l = [d] -> 1 <= threads_of l <= 1000 -> runserver_main host port args =
     Ok (Serve (first_some (host_of l) host (B "127.0.0.1")) (first_some (port_of l) port (B "8080")) d (Z.of_nat (threads_of l)))) /\
  ((forall d, roots l <> [d]) \/ ~ 1 <= threads_of l <= 1000 -> runserver_main host port args = Ok (Exit 1)).
Proof.
  intros host port l args Hl. pose proof (read_line Hl (SOpts None None None 20%Z)) as K. cbn [s_docroot s_host s_port s_threads] in K.
  cbv zeta in K. rewrite threads_value in K. unfold runserver_main.
  assert (V : (value (threads_of l) <=? 0)%Z || (1000 <? value (threads_of l))%Z = negb ((1 <=? threads_of l) && (threads_of l <=? 1000))).
  { unfold value. destruct (Z.leb_spec (2 ^ 64) (Z.of_nat (threads_of l))).
    - destruct (Nat.leb_spec (threads_of l) 1000); [lia|]. rewrite andb_false_r. reflexivity.
    - destruct (Nat.leb_spec 1 (threads_of l)), (Nat.leb_spec (threads_of l) 1000), (Z.leb_spec (Z.of_nat (threads_of l)) 0), (Z.ltb_spec 1000 (Z.of_nat (threads_of l))); try reflexivity; lia. }
  split.
  - intros d E [H1 H2]. rewrite E in K. rewrite K. cbn [rbind s_docroot s_threads s_host s_port]. rewrite V.
    rewrite (proj2 (Nat.leb_le _ _) H1), (proj2 (Nat.leb_le _ _) H2). cbn [andb negb].
    unfold value. destruct (Z.leb_spec (2 ^ 64) (Z.of_nat (threads_of l))); [lia|].
    unfold first_some, host_of, port_of, last_of, or_else. fold (@after bytes).
    unfold after. destruct (fold_left _ l None); destruct (fold_left _ l None); destruct host, port; reflexivity.
  - intro H. destruct (roots l) as [|d [|d' ds]].
    + rewrite K. reflexivity.
    + destruct H as [H|H]; [exfalso; exact (H d eq_refl)|]. rewrite K. cbn [rbind s_docroot s_threads]. rewrite V.
      destruct (Nat.leb_spec 1 (threads_of l)), (Nat.leb_spec (threads_of l) 1000); try reflexivity. exfalso. apply H. split; assumption.
    + rewrite K. reflexivity.
Qed.
Print Assumptions C87_line_partial.

(* -h, -v and unknown options end it, whatever follows, before a server is started *)
Theorem C87_ends : forall host port l args a rest, line l args -> length (roots l) <= 1 ->
  (forall s, a = "-"%char :: "h"%char :: s \/ a = "-"%char :: "v"%char :: s -> runserver_main host port (args ++ a :: rest) = Ok (Exit 0)) /\
  (dashed a -> (forall c s, a = "-"%char :: c :: s -> ~ In c (B "hvtpm")) -> runserver_main host port (args ++ a :: rest) = Ok (Exit 1)).
Proof.
  intros host port l args a rest Hl Hr.
  assert (G : forall l w, line l w -> forall o, length (roots l) <= (match s_docroot o with Some _ => 0 | None => 1 end) -> exists o', serve_args (w ++ a :: rest) o = serve_args (a :: rest) o').
  { clear. induction 1 as [|i l w r Hs Hl IH]; intros o Hr; [exists o; reflexivity|]. rewrite <- app_assoc.
    destruct Hs as [h w Hw|h w Hw|n s w Hd Hw|d Hd]; cbn [roots flat_map app] in Hr.
    - rewrite (read_host _ _ Hw). apply IH. exact Hr.
    - rewrite (read_port _ _ Hw). apply IH. exact Hr.
    - rewrite (read_threads _ _ Hw). apply IH. exact Hr.
    - cbn [app]. rewrite (read_root _ _ Hd). destruct (s_docroot o); [cbn in Hr; lia|]. apply IH. cbn [s_docroot]. cbn [length] in Hr. unfold roots. lia. }
  destruct (G _ _ Hl (SOpts None None None 20%Z)) as (o' & E); [exact Hr|]. unfold runserver_main. rewrite E. split.
  - intros s [->| ->]; reflexivity.
  - intros (s & ->) H. destruct s as [|c s]; [reflexivity|]. specialize (H _ _ eq_refl). cbn [serve_args].
    assert (N : forall x, In x (B "hvtpm") -> (c == x) = false) by (intros x I; apply eqb_false; intros ->; auto).
    rewrite !N by (vm_compute; tauto). reflexivity.
Qed.
Print Assumptions C87_ends.

Example C87_ex :
  runserver_main None (Some (B "80")) [B "-t"; B "::1"; B "_build"; B "-m4"] = Ok (Serve (B "::1") (B "80") (B "_build") 4) /\
  line [I_host (B "::1"); I_root (B "_build"); I_threads 4] [B "-t"; B "::1"; B "_build"; B "-m4"].
Proof.
  split; [reflexivity|].
  apply (@L_cons _ _ [B "-t"; B "::1"]); [constructor; constructor|]. apply (@L_cons _ _ [B "_build"]); [constructor; intros (s & H); discriminate|].
  apply (@L_cons _ _ [B "-m4"] []); [|constructor]. apply (@Sp_threads 4 (B "4")); [|apply OW_one; discriminate].
  split; [discriminate|]. split; [repeat constructor|reflexivity].
Qed.

(* Other command lines are not all refused: text after the number is ignored, a
   negative number wraps around, an option without its value is ignored for -t and -p
   and dereferences NULL for -m. *)
Theorem C87_refuted :
  runserver_main None None [B "-m"; B "5x"; B "d"] = Ok (Serve (B "127.0.0.1") (B "8080") (B "d") 5) /\
  runserver_main None None [B "-m"; B "-18446744073709551615"; B "d"] = Ok (Serve (B "127.0.0.1") (B "8080") (B "d") 1) /\
  runserver_main None None [B "d"; B "-t::1"; B "-t"] = Ok (Serve (B "127.0.0.1") (B "8080") (B "d") 20) /\
  runserver_main None None [B "d"; B "-m"] = UB.
Proof. vm_compute. auto. Qed.
Print Assumptions C87_refuted.
