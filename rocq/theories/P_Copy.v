(* C53: copying a file. *)
From Verif Require Import Base MainSpec ReceiverSpec Rules BuildSpec Native.
From Coq Require Import ZArith.
#[local] Open Scope nat_scope.

Definition prefix_of (a b : bytes) : Prop := exists r, b = a ++ r.

Lemma put_same s i b : put s i b i = b.
Proof. unfold put. rewrite Nat.eqb_refl. reflexivity. Qed.
Lemma put_other s i b j : j <> i -> put s i b j = s j.
Proof. intro H. unfold put. apply Nat.eqb_neq in H. rewrite H. reflexivity. Qed.

Lemma firstn_front {A} (l r : list A) : firstn (length l) (l ++ r) = l.
Proof. rewrite firstn_app, Nat.sub_diag, firstn_O, app_nil_r. apply firstn_all. Qed.

(* what the inner loop writes: all of it, or a part if a write fails *)
Lemma write_loop_spec dst : forall ws b s s' ws' ok, write_loop dst b ws s = (s', ws', ok) ->
  (exists a r, b = a ++ r /\ s' dst = s dst ++ a /\ (ok = true -> r = [])) /\ (forall k, k <> dst -> s' k = s k)
  /\ (exists l, ws = l ++ ws' /\ (ok = false -> In Fail l)).
Proof.
  induction ws as [|w ws IH]; intros b s s' ws' ok H; cbn [write_loop] in H.
  - injection H as <- <- <-. split; [exists b, []; rewrite app_nil_r, put_same; auto|]. split; [intros k Hk; apply put_other; exact Hk|].
    exists []. split; [reflexivity|discriminate].
  - destruct w as [|n].
    + injection H as <- <- <-. split; [exists [], b; rewrite app_nil_r; split; [reflexivity|split; [reflexivity|discriminate]]|].
      split; [reflexivity|]. exists [Fail]. split; [reflexivity|left; reflexivity].
    + set (s1 := put s dst (s dst ++ firstn n b)) in *. cbv zeta in H.
      assert (O : forall k, k <> dst -> s1 k = s k) by (intros k Hk; apply put_other; exact Hk).
      assert (D : s1 dst = s dst ++ firstn n b) by apply put_same.
      destruct (skipn n b) as [|c r] eqn:E.
      * injection H as <- <- <-. split; [exists b, []; rewrite app_nil_r; split; [reflexivity|split; [|reflexivity]]|split; [exact O|]].
        { rewrite D. rewrite <- (firstn_skipn n b) at 2. rewrite E, app_nil_r. reflexivity. }
        exists [Upto n]. split; [reflexivity|discriminate].
      * apply IH in H. destruct H as ((a & r' & E1 & E2 & E3) & O' & l & E4 & E5). split; [|split].
        { exists (firstn n b ++ a), r'. rewrite E2, D, <- !app_assoc, <- E1, <- E, firstn_skipn. auto. }
        { intros k Hk. rewrite O', O by exact Hk. reflexivity. }
        exists (Upto n :: l). split; [cbn [app]; rewrite E4; reflexivity|]. intro X. right. apply E5. exact X.
Qed.

Lemma copy_loop_spec src dst : src <> dst -> forall fuel at_ rs ws s s' rv, s dst = firstn at_ (s src) -> at_ <= length (s src) ->
  copy_loop fuel src dst at_ rs ws s = Ok (s', rv) ->
  prefix_of (s' dst) (s src) /\ (forall k, k <> dst -> s' k = s k) /\ (rv = 0 -> s' dst = s src \/ In Fail rs) /\ (rv <> 0 -> In Fail ws).
Proof.
  intro Hne. induction fuel as [|fuel IH]; intros at_ rs ws s s' rv Hd Hl H; [discriminate|]. cbn [copy_loop] in H.
  assert (K : forall n, 1 <= n ->
    match firstn n (skipn at_ (s src)) with
    | [] => Ok (s, 0)
    | b => match write_loop dst b ws s with
           | (s, ws, true) => copy_loop fuel src dst (at_ + length b) (tl rs) ws s
           | (s, _, false) => Ok (s, 1)
           end
    end = Ok (s', rv) ->
    prefix_of (s' dst) (s src) /\ (forall k, k <> dst -> s' k = s k) /\ (rv = 0 -> s' dst = s src \/ In Fail rs) /\ (rv <> 0 -> In Fail ws)).
  { clear H. intros n Hn H. destruct (firstn n (skipn at_ (s src))) as [|c b] eqn:Eb.
    - injection H as <- <-. assert (skipn at_ (s src) = []) as E by (destruct (skipn at_ (s src)), n; [reflexivity|reflexivity|lia|discriminate]).
      split; [exists (skipn at_ (s src)); rewrite Hd, firstn_skipn; reflexivity|]. split; [reflexivity|]. split; [|congruence]. intros _. left.
      rewrite <- (firstn_skipn at_ (s src)), E, app_nil_r. exact Hd.
    - rewrite <- Eb in H. cbv zeta in H. set (ch := firstn n (skipn at_ (s src))) in *. destruct (write_loop dst ch ws s) as [[s1 ws1] ok] eqn:Ew.
      destruct (write_loop_spec Ew) as ((a & r & E1 & E2 & E3) & O & l & E4 & E5).
      assert (Hs1 : s1 src = s src) by (apply O; exact Hne).
      assert (Hcat : firstn at_ (s src) ++ ch = firstn (at_ + length ch) (s src)).
      { assert (X : s src = firstn at_ (s src) ++ ch ++ skipn n (skipn at_ (s src))).
        { unfold ch. rewrite (firstn_skipn n (skipn at_ (s src))). symmetry. apply firstn_skipn. }
        assert (Y : at_ + length ch = length (firstn at_ (s src) ++ ch)) by (rewrite app_length, firstn_length; lia).
        rewrite Y. clearbody ch. clear - X. revert X. generalize (firstn at_ (s src)), (skipn n (skipn at_ (s src))). intros p q X.
        rewrite X, app_assoc. symmetry. apply firstn_front. }
      assert (Hlen : at_ + length ch <= length (s src)).
      { unfold ch. rewrite firstn_length, skipn_length. lia. }
      destruct ok.
      + rewrite (E3 eq_refl), app_nil_r in E1. subst a. apply IH in H.
        * destruct H as (P & O' & Z & F). rewrite Hs1 in P, Z. split; [exact P|]. split; [intros k Hk; rewrite O', O by exact Hk; reflexivity|].
          split; [intro X; destruct (Z X) as [Y|Y]; [left; exact Y|right; destruct rs; [destruct Y|right; exact Y]]|].
          intro X. rewrite E4. apply in_or_app. right. apply F. exact X.
        * rewrite E2, Hd, Hs1. exact Hcat.
        * rewrite Hs1. exact Hlen.
      + injection H as <- <-. split; [|split; [exact O|split; [discriminate|]]].
        * exists (r ++ skipn n (skipn at_ (s src))). rewrite E2, Hd, <- app_assoc, (app_assoc a r), <- E1. unfold ch. rewrite firstn_skipn. symmetry. apply firstn_skipn.
        * intros _. rewrite E4. apply in_or_app. left. apply E5. reflexivity. }
  destruct rs as [|[|n] rs].
  - apply (K chunk_size); [unfold chunk_size; lia|exact H].
  - injection H as <- <-. split; [exists (skipn at_ (s src)); rewrite Hd, firstn_skipn; reflexivity|]. split; [reflexivity|].
    split; [intros _; right; left; reflexivity|congruence].
  - apply (K (Nat.min chunk_size (Nat.max 1 n))); [unfold chunk_size; lia|exact H].
Qed.

(* the directories *)
Lemma cp_mkdirs_spec mkdir rest : forall done l ok, cp_mkdirs mkdir done rest = (l, ok) ->
  (forall d, In d l -> parent d (done ++ rest))
  /\ (ok = true -> forall d, In d l -> mkdir d = true)
  /\ (ok = true -> forall d c r, d <> [] -> done ++ rest = d ++ c :: r -> length done <= length d -> c = "/"%char \/ c = BSL -> In d l).
Proof.
  induction rest as [|c r IH]; intros done l ok H; cbn [cp_mkdirs] in H.
  - injection H as <- <-. split; [intros d []|]. split; [intros _ d []|]. intros _ d c r _ E L _. apply (f_equal (@length ascii)) in E.
    rewrite !app_length in E. cbn [length] in E. lia.
  - destruct (negb (c == "/"%char) && negb (c == BSL)) eqn:Ec.
    { apply IH in H. rewrite <- app_assoc in H. cbn [app] in H. destruct H as (H1 & H2 & H3). split; [exact H1|]. split; [exact H2|].
      intros X d c' r' Hd E L Hc. apply (H3 X d c' r' Hd E); [|exact Hc]. rewrite app_length. cbn [length].
      destruct (Nat.eq_dec (length d) (length done)) as [Ed|]; [|lia]. exfalso.
      assert (K : d = done).
      { rewrite <- (firstn_front d (c' :: r')), <- E, Ed. apply firstn_front. }
      subst d. apply app_inv_head in E. injection E as -> ->. apply andb_true_iff in Ec. destruct Ec as [E1 E2]. apply negb_true_iff in E1, E2.
      apply eqb_false in E1, E2. destruct Hc; contradiction. }
    assert (P : done <> [] -> parent done (done ++ c :: r)).
    { intro Hd. split; [exact Hd|]. exists c, r. split; [reflexivity|]. apply andb_false_iff in Ec.
      destruct Ec as [Ec|Ec]; apply negb_false_iff in Ec; [left|right]; apply eqb_true; exact Ec. }
    assert (Q : forall d c' r', done ++ c :: r = d ++ c' :: r' -> length done <= length d -> d = done \/ length (done ++ [c]) <= length d).
    { intros d c' r' E L. destruct (Nat.eq_dec (length d) (length done)) as [Ed|]; [left|right; rewrite app_length; cbn [length]; lia].
      rewrite <- (firstn_front d (c' :: r')), <- E, Ed. apply firstn_front. }
    destruct done as [|d0 d1].
    { apply IH in H. cbn [app] in H. destruct H as (H1 & H2 & H3). split; [exact H1|]. split; [exact H2|]. intros X d c' r' Hd E L Hc.
      apply (H3 X d c' r' Hd E); [|exact Hc]. destruct d; [contradiction|]. cbn [length]. lia. }
    destruct (mkdir (d0 :: d1)) eqn:Em.
    + destruct (cp_mkdirs mkdir ((d0 :: d1) ++ [c]) r) as [l' ok'] eqn:E'. injection H as <- <-. apply IH in E'. rewrite <- app_assoc in E'.
      change ([c] ++ r) with (c :: r) in E'. destruct E' as (H1 & H2 & H3). split; [|split].
      * intros d [<-|Hi]; [apply P; discriminate|apply H1; exact Hi].
      * intros X d [<-|Hi]; [exact Em|apply H2; assumption].
      * intros X d c' r' Hd E L Hc. destruct (Q d c' r' E L) as [->|L']; [left; reflexivity|right; eapply H3; eassumption].
    + injection H as <- <-. split; [intros d [<-|[]]; apply P; discriminate|]. split; discriminate.
Qed.

(* C53: when nothing fails to be read and the two are not the same file, a copy that
   succeeds is exact, in any case no other file is touched and nothing is written that
   is not in the source; a copy that does not succeed has a reason. *)
Theorem C53_copy_partial : forall fuel mkdir path i j rs ws s dirs s' rv,
  i <> j -> ~ In Fail rs ->
  native_cp fuel mkdir path (Some i) (Some j) rs ws s = (dirs, Ok (s', rv)) ->
  (rv = 0 -> s' j = s i) /\ (forall k, k <> j -> s' k = s k) /\ (prefix_of (s' j) (s i) \/ s' = s)
  /\ (rv <> 0 -> In Fail ws \/ exists d, In d dirs /\ mkdir d = false).
Proof.
  intros fuel mkdir path i j rs ws s dirs s' rv Hne Hr H. unfold native_cp in H. destruct (cp_mkdirs mkdir [] path) as [l ok] eqn:Ed.
  destruct ok; cbn [negb] in H.
  - injection H as <- H. apply copy_loop_spec in H; [|exact Hne|rewrite put_same; reflexivity|lia].
    rewrite (put_other s [] Hne) in H. destruct H as (P & O & Z & F).
    split; [intro X; destruct (Z X); [assumption|contradiction]|]. split; [intros k Hk; rewrite O by exact Hk; apply put_other; exact Hk|].
    split; [left; exact P|]. intro X. left. apply F. exact X.
  - injection H as <- <- <-. split; [discriminate|]. split; [reflexivity|]. split; [right; reflexivity|]. intros _. right.
    clear - Ed. revert Ed. generalize (@nil ascii). revert l. induction path as [|c r IH]; intros l done H; cbn [cp_mkdirs] in H; [discriminate|].
    destruct (negb (c == "/"%char) && negb (c == BSL)); [eapply IH; exact H|]. destruct done as [|d0 d1]; [eapply IH; exact H|].
    destruct (mkdir (d0 :: d1)) eqn:Em; [|injection H as <-; exists (d0 :: d1); split; [left; reflexivity|exact Em]].
    destruct (cp_mkdirs mkdir _ r) as [l' ok'] eqn:E. injection H as <- ->. destruct (IH _ _ E) as (d & Hd & Hm). exists d. split; [right; exact Hd|exact Hm].
Qed.
(* It ends, whatever the sizes of the reads and writes. *)
Theorem C53_ends : forall fuel mkdir path source dest rs ws s,
  (forall i, source = Some i -> length (s i) < fuel) -> snd (native_cp fuel mkdir path source dest rs ws s) <> OutOfFuel.
Proof.
  intros fuel mkdir path source dest rs ws s Hf. unfold native_cp. destruct (cp_mkdirs mkdir [] path) as [l ok]. cbn [snd].
  destruct ok; cbn [negb]; [|discriminate]. destruct source as [i|]; [|discriminate]. destruct dest as [j|]; [|discriminate].
  specialize (Hf i eq_refl). destruct (Nat.eq_dec i j) as [->|Hne].
  - destruct fuel as [|fuel]; [lia|]. cbn [copy_loop]. rewrite put_same. destruct rs as [|[|n] rs]; cbv zeta; cbn [skipn]; rewrite ?firstn_nil; discriminate.
  - assert (G : forall fuel at_ rs ws (s : store), length (s i) < fuel + at_ -> fuel <> 0 -> copy_loop fuel i j at_ rs ws s <> OutOfFuel).
    { clear - Hne. induction fuel as [|fuel IH]; intros at_ rs ws s Hl Hz; [lia|]. cbn [copy_loop].
      assert (K : forall n, match firstn n (skipn at_ (s i)) with
        | [] => Ok (s, 0)
        | b => match write_loop j b ws s with
               | (s, ws, true) => copy_loop fuel i j (at_ + length b) (tl rs) ws s
               | (s, _, false) => Ok (s, 1)
               end
        end <> OutOfFuel).
      { intro n. destruct (firstn n (skipn at_ (s i))) as [|c b] eqn:Eb; [discriminate|]. cbv zeta. destruct (write_loop j (c :: b) ws s) as [[s1 ws1] ok] eqn:Ew.
        destruct ok; [|discriminate]. destruct (write_loop_spec Ew) as (_ & O & _). apply (f_equal (@length ascii)) in Eb. rewrite firstn_length, skipn_length in Eb.
        cbn [length] in Eb |- *. apply IH; [rewrite (O i Hne); lia|lia]. }
      destruct rs as [|[|n] rs]; [apply K|discriminate|apply K]. }
    apply G; [rewrite (put_other s [] Hne)|]; lia.
Qed.
(* The directories on the way to the copy are made, and no others; nothing is opened
   unless all of them are there. *)
Theorem C53_directories : forall fuel mkdir path source dest rs ws s dirs r,
  native_cp fuel mkdir path source dest rs ws s = (dirs, r) ->
  (forall d, In d dirs -> parent d path)
  /\ (r <> Ok (s, 1) -> forall d, parent d path -> In d dirs /\ mkdir d = true).
Proof.
  intros fuel mkdir path source dest rs ws s dirs r H. unfold native_cp in H. destruct (cp_mkdirs mkdir [] path) as [l ok] eqn:Ed.
  destruct (cp_mkdirs_spec Ed) as (H1 & H2 & H3). cbn [app length] in *. injection H as <- H. split; [exact H1|]. intros Hr d (Hd & c & r' & E & Hc).
  destruct ok; [|exfalso; apply Hr; symmetry; exact H]. assert (I : In d l) by (eapply H3; eauto; lia). split; [exact I|apply H2; auto].
Qed.
Print Assumptions C53_copy_partial.
Print Assumptions C53_ends.
Print Assumptions C53_directories.

(* ---- what is missing ---- *)
(* a read that fails ends the copy as if the file ended there *)
Theorem C53_refuted : exists mkdir path i j rs ws s dirs s', i <> j /\ ~ In Fail ws /\
  native_cp 100 mkdir path (Some i) (Some j) rs ws s = (dirs, Ok (s', 0)) /\ s' j <> s i.
Proof.
  exists (fun _ => true), (B "_build/a.txt"), 0, 1, [Upto 2; Fail], [], (put (fun _ => []) 0 (B "abc")). eexists. eexists.
  split; [discriminate|]. split; [intros []|]. split; [reflexivity|]. vm_compute. discriminate.
Qed.
(* and a file copied to itself is lost, whatever was in it *)
Theorem C53_lost : forall fuel mkdir path i rs ws s dirs s' rv, 0 < fuel ->
  native_cp fuel mkdir path (Some i) (Some i) rs ws s = (dirs, Ok (s', rv)) -> s' <> s -> s' i = [] /\ rv = 0.
Proof.
  intros fuel mkdir path i rs ws s dirs s' rv Hf H Hs. unfold native_cp in H. destruct (cp_mkdirs mkdir [] path) as [l ok].
  destruct ok; cbn [negb] in H; [|injection H as _ <- _; contradiction]. destruct fuel as [|fuel]; [lia|]. cbn [copy_loop] in H.
  rewrite put_same in H. destruct rs as [|[|n] rs]; cbv zeta in H; cbn [skipn] in H; rewrite ?firstn_nil in H; injection H as _ <- <-; rewrite put_same; auto.
Qed.
(* which happens with OUTPUT_DIR=. *)
Theorem C53_same_refuted : exists dirs s', leads_to (B "/home/me/blog/./" ++ B "logo.png") = leads_to (B "/home/me/blog/" ++ B "logo.png") /\
  native_cp 100 (fun _ => true) (B "/home/me/blog/./logo.png") (Some 3) (Some 3) [] [] (fun _ => B "PNG") = (dirs, Ok (s', 0)) /\ s' 3 = [].
Proof. eexists. eexists. split; [reflexivity|]. split; reflexivity. Qed.
Print Assumptions C53_same_refuted.
Print Assumptions C53_refuted.
Print Assumptions C53_lost.

Example ex_copy : exists dirs s', native_cp 100 (fun d => negb (beq d (B "no"))) (B "_build/css/a.css") (Some 0) (Some 1) [Upto 2; Upto 0] [Upto 1; Upto 0; Upto 9]
    (put (fun _ => B "old contents") 0 (B "body {}")) = (dirs, Ok (s', 0))
  /\ dirs = [B "_build"; B "_build/css"] /\ s' 1 = B "body {}" /\ s' 0 = B "body {}" /\ s' 2 = B "old contents".
Proof. eexists. eexists. split; [reflexivity|]. split; [reflexivity|]. split; [reflexivity|]. split; reflexivity. Qed.
