(* Proofs about the file list parser. *)
From Verif Require Import Base Utils UtilsProofs Filelist FilelistSpec.

(* what the loop leaves of a line *)
Fixpoint drop_hb (l : bytes) : bytes :=
  match l with [] => [] | c :: r => if hb c then drop_hb r else l end.
Definition take (l : bytes) : list (nat * bytes) :=
  if wanted l then [strip_at (cstr (drop_hb l))] else [].

Lemma rd_at pre c r : rd (pre ++ c :: r) (length pre) = Ok c.
Proof. apply rd_mid. Qed.

Lemma lt_len A (pre : list A) c r : Nat.ltb (length pre) (length (pre ++ c :: r)) = true.
Proof. rewrite app_length. apply Nat.ltb_lt. cbn. lia. Qed.
Lemma ge_len A (pre : list A) : Nat.ltb (length pre) (length pre) = false.
Proof. apply Nat.ltb_irrefl. Qed.
Lemma last_at A (pre : list A) c r : Nat.eqb (length pre) (length (pre ++ c :: r) - 1) = match r with [] => true | _ => false end.
Proof.
  rewrite app_length. destruct r; cbn.
  - apply Nat.eqb_eq. lia.
  - apply Nat.eqb_neq. lia.
Qed.
Lemma snoc_len A (pre : list A) c : length pre + 1 = length (pre ++ [c]).
Proof. rewrite app_length. reflexivity. Qed.
Lemma snoc_app A (pre : list A) c r : pre ++ c :: r = (pre ++ [c]) ++ r.
Proof. rewrite <- app_assoc. reflexivity. Qed.

Fixpoint until_eol (s : bytes) : bytes := match s with [] => [] | c :: r => if eol c then [] else c :: until_eol r end.
Fixpoint from_eol (s : bytes) : bytes := match s with [] => [] | c :: r => if eol c then s else from_eol r end.
Lemma until_from s : until_eol s ++ from_eol s = s.
Proof. induction s as [|c s IH]; [reflexivity|]. cbn. destruct (eol c); [reflexivity|]. cbn. rewrite IH. reflexivity. Qed.

Lemma comment_run s : forall fuel pre, length s < fuel ->
  fl_comment fuel (pre ++ s) (length pre) = Ok (length pre + length (until_eol s)).
Proof.
  induction s as [|c s IH]; intros fuel pre Hf; (destruct fuel as [|fuel]; [lia|]); cbn [fl_comment].
  - rewrite app_nil_r, ge_len. cbn. f_equal. lia.
  - rewrite lt_len, rd_at. cbn [rbind until_eol]. unfold eol. destruct ((c == CR) || (c == LF)) eqn:E.
    + cbn. f_equal. lia.
    + rewrite (snoc_app pre c s), (snoc_len pre c), (IH fuel (pre ++ [c])) by (cbn in Hf; lia).
      rewrite app_length. cbn. f_equal. lia.
Qed.

(* lines of the rest *)
Lemma lines_comment s l : lines_from l s = match from_eol s with [] => [l ++ until_eol s] | c :: r => (l ++ until_eol s) :: lines r end.
Proof.
  revert l. induction s as [|c s IH]; intro l; cbn; [rewrite app_nil_r; reflexivity|].
  destruct (eol c); [rewrite app_nil_r; reflexivity|]. rewrite IH. rewrite <- app_assoc. reflexivity.
Qed.

Lemma take_blank l : forallb hb l = true -> take l = [].
Proof.
  intro H. unfold take. assert (E : wanted l = false); [|rewrite E; reflexivity].
  induction l as [|c l IH]; [reflexivity|]. cbn in *. apply andb_prop in H. destruct H as [-> H]. apply IH, H.
Qed.
Lemma wanted_blank l x : forallb hb l = true -> wanted (l ++ x) = wanted x.
Proof. induction l as [|c l IH]; [reflexivity|]. cbn. intro H. apply andb_prop in H. destruct H as [-> H]. apply IH, H. Qed.
Lemma drop_blank l x : forallb hb l = true -> drop_hb (l ++ x) = drop_hb x.
Proof. induction l as [|c l IH]; [reflexivity|]. cbn. intro H. apply andb_prop in H. destruct H as [-> H]. apply IH, H. Qed.

Definition total (ls : list bytes) : list (nat * bytes) := concat (map take ls).

Lemma until_noeol s : forallb (fun c => negb (eol c)) (until_eol s) = true.
Proof. induction s as [|c s IH]; [reflexivity|]. cbn. destruct (eol c) eqn:E; [reflexivity|]. cbn. rewrite E. exact IH. Qed.

(* [l] is the part of the current line already read *)
Lemma loop_run n : forall s, length s < n ->
  (forall fuel pre l rv, 2 * length s + 1 < fuel -> forallb hb l = true ->
     fl_loop fuel (pre ++ s) (length pre) FLineStart [] rv = Ok (rv ++ total (lines_from l s))) /\
  (forall fuel pre l b x rv, 2 * length s < fuel -> s <> [] -> forallb hb b = true -> x <> [] -> drop_hb x = x -> wanted x = true ->
     l = b ++ x ->
     fl_loop fuel (pre ++ s) (length pre) FLine x rv = Ok (rv ++ total (lines_from l s))) /\
  (forall fuel pre l rv c r, 2 * length s < fuel -> s = c :: r -> hb c = false -> eol c = false -> c <> "#"%char -> forallb hb l = true ->
     fl_loop fuel (pre ++ s) (length pre) FLine [] rv = Ok (rv ++ total (lines_from l s))).
Proof.
  induction n as [|n IH]; intros s Hn; [lia|].
  assert (P2 : forall fuel pre l b x rv, 2 * length s < fuel -> s <> [] -> forallb hb b = true -> x <> [] -> drop_hb x = x -> wanted x = true ->
     l = b ++ x ->
     fl_loop fuel (pre ++ s) (length pre) FLine x rv = Ok (rv ++ total (lines_from l s))).
  { intros fuel pre l b x rv Hf Hs Hb Hx Hd Hw ->. destruct s as [|c s]; [congruence|]. destruct fuel as [|fuel]; [lia|].
    cbn [fl_loop]. rewrite lt_len, rd_at. cbn [rbind]. rewrite last_at. cbn [lines_from]. unfold eol.
    destruct ((c == CR) || (c == LF)) eqn:E; cbn [orb negb andb].
    - rewrite andb_false_r. rewrite (snoc_app pre c s), (snoc_len pre c).
      destruct (IH s) as [I1 _]; [cbn in Hn; lia|].
      rewrite (I1 fuel (pre ++ [c]) []); [|cbn in Hf; lia|reflexivity]. f_equal. rewrite <- app_assoc. f_equal.
      unfold total. cbn [map concat]. unfold take at 2. rewrite wanted_blank, drop_blank, Hw, Hd by exact Hb. reflexivity.
    - destruct s as [|c' s].
      + cbn [andb]. rewrite (snoc_app pre c []), (snoc_len pre c).
        destruct (IH []) as [I1 _]; [cbn in Hn; cbn; lia|].
        rewrite (I1 fuel (pre ++ [c]) []); [|cbn in Hf; cbn; lia|reflexivity]. f_equal. rewrite <- app_assoc. f_equal.
        assert (Hw' : wanted (x ++ [c]) = true /\ drop_hb (x ++ [c]) = x ++ [c]).
        { destruct x as [|y x]; [congruence|]. cbn in Hd, Hw |- *. destruct (hb y) eqn:Ey; [|split; [exact Hw|reflexivity]].
          exfalso. assert (G : forall z, length (drop_hb z) <= length z) by (intro z; induction z as [|? ? IHz]; cbn; [lia|destruct (hb a); cbn; lia]).
          specialize (G x). rewrite Hd in G. cbn in G. lia. }
        cbn [lines_from]. unfold total. cbn [map concat app]. unfold take at 1. cbn [wanted]. cbn [app].
        rewrite <- app_assoc. unfold take. rewrite wanted_blank, drop_blank by exact Hb. destruct Hw' as [-> ->]. rewrite app_nil_r. reflexivity.
      + destruct (IH (c' :: s)) as (_ & I2 & _); [cbn in *; lia|].
        rewrite (snoc_app pre c (c' :: s)), (snoc_len pre c).
        assert (Hx' : forall y z, drop_hb (y :: z) = y :: z -> hb y = false).
        { intros y z H. cbn in H. destruct (hb y) eqn:Ey; [|reflexivity].
          exfalso. assert (G : forall z, length (drop_hb z) <= length z) by (intro w; induction w as [|? ? IHz]; cbn; [lia|destruct (hb a); cbn; lia]).
          specialize (G z). rewrite H in G. cbn in G. lia. }
        destruct x as [|y x]; [congruence|]. specialize (Hx' _ _ Hd).
        eapply (I2 fuel (pre ++ [c]) _ b); [cbn in Hf; cbn; lia|discriminate|exact Hb|discriminate| | |rewrite <- app_assoc; reflexivity].
        * cbn. rewrite Hx'. reflexivity.
        * cbn in Hw |- *. rewrite Hx' in *. exact Hw. }
  assert (P3 : forall fuel pre l rv c r, 2 * length s < fuel -> s = c :: r -> hb c = false -> eol c = false -> c <> "#"%char -> forallb hb l = true ->
     fl_loop fuel (pre ++ s) (length pre) FLine [] rv = Ok (rv ++ total (lines_from l s))).
  { intros fuel pre l rv c r Hf -> Hh He Hc Hl. destruct fuel as [|fuel]; [lia|].
    cbn [fl_loop]. rewrite lt_len, rd_at. cbn [rbind]. rewrite last_at. cbn [lines_from]. rewrite He. unfold eol in He. rewrite He. cbn [orb negb andb].
    assert (Hw : wanted [c] = true).
    { cbn. rewrite Hh. destruct (Ascii.eqb_spec c "#"%char); [congruence|reflexivity]. }
    destruct r as [|c' r].
    - cbn [andb]. rewrite (snoc_app pre c []), (snoc_len pre c).
      destruct (IH []) as [I1 _]; [cbn in Hn; cbn; lia|].
      rewrite (I1 fuel (pre ++ [c]) []); [|cbn in Hf; cbn; lia|reflexivity]. f_equal. rewrite <- app_assoc. f_equal.
      unfold total. cbn [lines_from map concat app]. unfold take. rewrite wanted_blank, drop_blank, Hw by exact Hl.
      cbn. rewrite Hh. rewrite ?app_nil_r. reflexivity.
    - destruct (IH (c' :: r)) as (_ & I2 & _); [cbn in *; lia|].
      rewrite (snoc_app pre c (c' :: r)), (snoc_len pre c).
      eapply (I2 fuel (pre ++ [c]) _ l); [cbn in Hf; cbn; lia|discriminate|exact Hl|discriminate| |exact Hw|reflexivity].
      cbn. rewrite Hh. reflexivity. }
  split; [|split; assumption].
  intros fuel pre l rv Hf Hl. destruct fuel as [|fuel]; [lia|]. cbn [fl_loop]. destruct s as [|c s].
  { rewrite app_nil_r, ge_len. cbn [lines_from]. unfold total. cbn. rewrite (take_blank Hl). cbn. rewrite app_nil_r. reflexivity. }
  rewrite lt_len, rd_at. cbn [rbind].
  destruct (Ascii.eqb_spec c "#"%char) as [->|Hc].
  - rewrite (@comment_run ("#"%char :: s) (S (length (pre ++ "#"%char :: s))) pre) by (rewrite app_length; cbn; lia). cbn [rbind].
    pose proof (until_from ("#"%char :: s)) as U. set (s1 := "#"%char :: s) in *.
    rewrite lines_comment. destruct (from_eol s1) as [|e r] eqn:Ef.
    + rewrite app_nil_r in U. rewrite U. destruct fuel as [|fuel]; [subst s1; cbn in Hf; lia|]. cbn [fl_loop].
      assert (G : Nat.ltb (length pre + length s1 + 1) (length (pre ++ s1)) = false) by (rewrite app_length; apply Nat.ltb_ge; lia).
      rewrite G. unfold total. cbn [map concat]. unfold take. rewrite wanted_blank by exact Hl. subst s1. cbn. rewrite app_nil_r. reflexivity.
    + assert (Hl1 : length s1 = length (until_eol s1) + S (length r)) by (rewrite <- U at 1; rewrite app_length; reflexivity).
      destruct (IH r) as [I1 _]; [cbn in Hn; subst s1; cbn in Hl1; lia|].
      assert (E1 : pre ++ s1 = (pre ++ until_eol s1 ++ [e]) ++ r) by (rewrite <- U at 1; rewrite <- !app_assoc; reflexivity).
      assert (E2 : length pre + length (until_eol s1) + 1 = length (pre ++ until_eol s1 ++ [e])) by (rewrite !app_length; cbn; lia).
      rewrite E1, E2. rewrite (I1 fuel _ []); [|subst s1; cbn in Hf, Hl1; lia|reflexivity]. f_equal. f_equal.
      unfold total, lines. cbn [map concat]. unfold take at 2. rewrite wanted_blank by exact Hl. subst s1. cbn [until_eol]. cbn. reflexivity.
  - destruct ((c == SP) || (c == TAB) || (c == CR) || (c == LF)) eqn:E.
    + destruct (IH s) as [I1 _]; [cbn in Hn; lia|].
      rewrite (snoc_app pre c s), (snoc_len pre c). cbn [lines_from]. destruct (eol c) eqn:Ee.
      * rewrite (I1 fuel (pre ++ [c]) []); [|cbn in Hf; lia|reflexivity]. f_equal. f_equal.
        unfold total. cbn [map concat]. rewrite (take_blank Hl). reflexivity.
      * rewrite (I1 fuel (pre ++ [c]) (l ++ [c])); [reflexivity|cbn in Hf; lia|].
        rewrite forallb_app, Hl. cbn. unfold hb. unfold eol in Ee. rewrite <- orb_assoc, Ee, orb_false_r in E. rewrite E. reflexivity.
    + rewrite <- orb_assoc in E. apply orb_false_iff in E. destruct E as [E1 E2].
      eapply P3; [cbn in Hf |- *; lia|reflexivity|exact E1|exact E2|exact Hc|exact Hl].
Qed.

Theorem filelist_run src : filelist_parse src = Ok (total (lines src)).
Proof.
  unfold filelist_parse. destruct (@loop_run (S (length src)) src) as [H _]; [lia|].
  apply (H _ [] [] []); [lia|reflexivity].
Qed.

Lemma cstr_drop l : cstr (drop_hb l) = drop_hb (cstr l).
Proof.
  induction l as [|c l IH]; [reflexivity|]. cbn. destruct (c == NUL) eqn:E.
  - apply eqb_true in E. subst c. reflexivity.
  - destruct (hb c) eqn:Eh; cbn; rewrite Eh; [exact IH|]. rewrite E. reflexivity.
Qed.
Lemma hb_blank c : hb c = true -> blank c.
Proof. unfold hb. intro H. apply orb_prop in H. destruct H as [H|H]; apply eqb_true in H; subst c; cbn; auto. Qed.
Lemma strip_drop l : strip (drop_hb l) = strip l.
Proof.
  induction l as [|c l IH]; [reflexivity|]. cbn [drop_hb]. destruct (hb c) eqn:E; [|reflexivity].
  rewrite IH. symmetry. apply strip_spec. destruct (strip_stripped l) as (p & q & E1 & Hp & Hq & H).
  exists (c :: p), q. split; [cbn; f_equal; exact E1|]. split; [constructor; [apply hb_blank, E|exact Hp]|]. auto.
Qed.

Lemma total_entries ls : map snd (total ls) = map (fun l => strip (cstr l)) (filter wanted ls).
Proof.
  unfold total. induction ls as [|l ls IH]; [reflexivity|]. cbn [map concat filter]. rewrite map_app, IH.
  unfold take. destruct (wanted l); [|reflexivity]. cbn. rewrite cstr_drop, strip_drop. reflexivity.
Qed.

(* the pointer is the start of its block *)
Lemma lstrip_len s : length (lstrip s) <= length s.
Proof. destruct (lstrip_spec s) as (p & E & _). rewrite E at 2. rewrite app_length. lia. Qed.

Lemma strip_cons_blank c l : blank c -> strip (c :: l) = strip l.
Proof.
  intro H. apply strip_spec. destruct (strip_stripped l) as (p & q & E1 & Hp & Hq & H1).
  exists (c :: p), q. split; [cbn; f_equal; exact E1|]. split; [constructor; auto|]. auto.
Qed.

Lemma strip_at_0 c l : hb c = false -> eol c = false -> Nat.eqb (fst (strip_at (c :: l))) 0 = negb (((c == VT) || (c == FF)) && negb (beq (strip l) [])).
Proof.
  intros Hh He. unfold strip_at. cbn [fst].
  destruct ((c == VT) || (c == FF)) eqn:E; cbn [andb].
  - assert (Hb : blank c).
    { apply orb_prop in E. destruct E as [E|E]; apply eqb_true in E; subst c; cbn; auto 10. }
    rewrite negb_involutive. destruct (beq (strip l) []) eqn:Es.
    + apply beq_eq in Es. apply Nat.eqb_eq.
      assert (E2 : strip (c :: l) = []) by (rewrite strip_cons_blank by exact Hb; exact Es).
      assert (E3 : rstrip (c :: l) = []).
      { destruct (rstrip_spec (c :: l)) as (q & E4 & Hq & H1). unfold strip in E2.
        destruct (list_last_inv (rstrip (c :: l))) as [E5|(r & x & E5)]; [exact E5|]. exfalso.
        destruct (lstrip_spec (rstrip (c :: l))) as (p & E6 & Hp & H2). rewrite E2, app_nil_r in E6.
        apply (H1 _ _ E5). rewrite E5 in E6. eapply all_blank_not_nonblank; [exact Hp|]. rewrite <- E6. apply in_or_app. right. left. reflexivity. }
      rewrite E3. reflexivity.
    + apply Nat.eqb_neq. intro E2.
      assert (E3 : strip l <> []) by (intro E3; rewrite E3 in Es; discriminate).
      destruct (lstrip_spec (rstrip (c :: l))) as (p & E4 & Hp & H1).
      pose proof (lstrip_len (rstrip (c :: l))) as H2.
      assert (Hp0 : p = []).
      { destruct p; [reflexivity|]. apply (f_equal (@length ascii)) in E4. rewrite app_length in E4. cbn [length] in E4. lia. }
      subst p. cbn [app] in E4. destruct (rstrip_spec (c :: l)) as (q & E5 & _).
      rewrite E4 in E5. destruct (lstrip (rstrip (c :: l))) as [|x r] eqn:E6.
      * apply E3. rewrite <- (strip_cons_blank l Hb). exact E6.
      * cbn in E5. injection E5 as <- E7. apply (H1 _ _ eq_refl). exact Hb.
  - apply Nat.eqb_eq.
    assert (Hb : ~ blank c).
    { intro H. unfold blank in H. cbn in H. unfold hb, eol in *. 
      destruct H as [H|[H|[H|[H|[H|[H|[]]]]]]]; subst c; vm_compute in Hh, He, E; discriminate. }
    destruct (rstrip_spec (c :: l)) as (q & E5 & Hq & H1).
    destruct (rstrip (c :: l)) as [|x r] eqn:E6; [reflexivity|]. cbn in E5. injection E5 as <- E5.
    cbn [lstrip]. assert (Hs : strip_blank c = false) by (apply strip_blank_false; exact Hb). rewrite Hs. apply Nat.sub_diag.
Qed.

Lemma lines_noeol s : forall l, forallb (fun c => negb (eol c)) l = true -> Forall (fun l => forallb (fun c => negb (eol c)) l = true) (lines_from l s).
Proof.
  induction s as [|c s IH]; intros l Hl; cbn; [auto|]. destruct (eol c) eqn:E; [constructor; [exact Hl|apply IH; reflexivity]|].
  apply IH. rewrite forallb_app, Hl. cbn. rewrite E. reflexivity.
Qed.

Lemma take_free l : forallb (fun c => negb (eol c)) l = true ->
  forallb (fun p => Nat.eqb (fst p) 0) (take l) = negb (wanted l && odd_start l).
Proof.
  intro He. unfold take. destruct (wanted l) eqn:Ew; [|reflexivity]. cbn [andb forallb]. rewrite andb_true_r.
  induction l as [|c l IH]; [discriminate|]. cbn in He, Ew |- *. apply andb_prop in He. destruct He as [He1 He2].
  destruct (hb c) eqn:Eh; [apply IH; assumption|]. apply negb_true_iff in He1.
  destruct (c == NUL) eqn:En.
  - cbn [cstr]. rewrite En. apply eqb_true in En. subst c. reflexivity.
  - cbn [cstr]. rewrite En. apply strip_at_0; assumption.
Qed.

Theorem filelist_free_spec src : exists l, filelist_parse src = Ok l /\ map snd l = entries src /\
  filelist_free l = if existsb (fun l => wanted l && odd_start l) (lines src) then UB else Ok tt.
Proof.
  eexists. split; [apply filelist_run|]. split; [apply total_entries|].
  unfold filelist_free. 
  assert (E : forallb (fun p => Nat.eqb (fst p) 0) (total (lines src)) = negb (existsb (fun l => wanted l && odd_start l) (lines src))).
  { pose proof (@lines_noeol src [] eq_refl) as H. unfold total, lines. induction H as [|l ls Hl H IH]; [reflexivity|].
    cbn. rewrite forallb_app, IH, take_free by exact Hl. rewrite negb_orb. reflexivity. }
  rewrite E. destruct (existsb _ _); reflexivity.
Qed.
