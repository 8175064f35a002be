From Verif Require Import Base Utf8.
Local Open Scope N_scope.
Ltac Zify.zify_post_hook ::= Z.div_mod_to_equations.

(* ---- specification: RFC 3629, section 3 ---- *)
Definition by_ (n : N) : ascii := ascii_of_N n.

(* Unicode scalar values *)
Definition scalar (cp : N) : Prop := cp < 0xD800 \/ (0xE000 <= cp /\ cp <= 0x10FFFF).

Definition encode (cp : N) : bytes :=
  if cp <? 0x80 then [by_ cp]
  else if cp <? 0x800 then [by_ (0xC0 + cp / 64); by_ (0x80 + cp mod 64)]
  else if cp <? 0x10000 then
    [by_ (0xE0 + cp / 4096); by_ (0x80 + (cp / 64) mod 64); by_ (0x80 + cp mod 64)]
  else
    [by_ (0xF0 + cp / 262144); by_ (0x80 + (cp / 4096) mod 64);
     by_ (0x80 + (cp / 64) mod 64); by_ (0x80 + cp mod 64)].

Definition utf8 (s : bytes) : Prop :=
  exists cps, Forall scalar cps /\ s = concat (map encode cps).

(* ---- proof ---- *)
Lemma nb_by n : n < 256 -> nb (by_ n) = n.
Proof. intro H. apply N_ascii_embedding. exact H. Qed.
Lemma by_nb c : by_ (nb c) = c.
Proof. apply ascii_N_embedding. Qed.
Lemma nb_lt c : nb c < 256.
Proof. apply N_ascii_bounded. Qed.

Definition btw (lo hi x : N) : bool := (lo <=? x) && (x <=? hi).

(* the transition function, by ranges *)
Definition step_spec (st : nat) (b : ascii) : nat :=
  let x := nb b in
  match st with
  | 0%nat => if x <? 0x80 then 0%nat else if btw 0xC2 0xDF x then 24%nat
         else if x =? 0xE0 then 48%nat else if x =? 0xED then 60%nat
         else if btw 0xE1 0xEF x then 36%nat
         else if x =? 0xF0 then 72%nat else if btw 0xF1 0xF3 x then 84%nat
         else if x =? 0xF4 then 96%nat else 12%nat
  | 24%nat => if btw 0x80 0xBF x then 0%nat else 12%nat
  | 36%nat => if btw 0x80 0xBF x then 24%nat else 12%nat
  | 48%nat => if btw 0xA0 0xBF x then 24%nat else 12%nat
  | 60%nat => if btw 0x80 0x9F x then 24%nat else 12%nat
  | 72%nat => if btw 0x90 0xBF x then 36%nat else 12%nat
  | 84%nat => if btw 0x80 0xBF x then 36%nat else 12%nat
  | 96%nat => if btw 0x80 0x8F x then 36%nat else 12%nat
  | _ => 12%nat
  end.

Definition states : list nat := [0; 12; 24; 36; 48; 60; 72; 84; 96]%nat.
Definition step_ok (st : nat) (b : ascii) : bool :=
  match utf8_step st b with
  | Ok s => Nat.eqb s (step_spec st b) && existsb (Nat.eqb s) states
  | _ => false
  end.

Lemma step_ok_all : forallb (fun st => forallb (step_ok st) all_bytes) states = true.
Proof. vm_compute. reflexivity. Qed.

Lemma step_eq st b : In st states -> utf8_step st b = Ok (step_spec st b) /\ In (step_spec st b) states.
Proof.
  intro Hst. pose proof step_ok_all as H. rewrite forallb_forall in H. specialize (H _ Hst).
  pose proof (forall_bytes H b) as Hb. unfold step_ok in Hb.
  destruct (utf8_step st b) as [s| |]; try discriminate.
  apply andb_true_iff in Hb. destruct Hb as [H1 H2]. apply Nat.eqb_eq in H1. subst s.
  split; [reflexivity|]. apply existsb_exists in H2. destruct H2 as (x & Hx & He).
  apply Nat.eqb_eq in He. subst. exact Hx.
Qed.

Fixpoint run_spec (st : nat) (s : bytes) : nat :=
  match s with [] => st | b :: r => run_spec (step_spec st b) r end.

Lemma run_eq s : forall st, In st states -> utf8_run st s = Ok (run_spec st s).
Proof.
  induction s as [|b r IH]; intros st Hst; [reflexivity|].
  destruct (@step_eq st b Hst) as [H1 H2].
  cbn [utf8_run run_spec]. rewrite H1. cbn [rbind]. apply IH. exact H2.
Qed.

Lemma run_spec_app x : forall st y, run_spec st (x ++ y) = run_spec (run_spec st x) y.
Proof. induction x as [|b x IH]; intros st y; [reflexivity|]. apply IH. Qed.

Lemma run_12 s : run_spec 12 s = 12%nat.
Proof. induction s as [|b s IH]; [reflexivity|]. exact IH. Qed.

Ltac rng :=
  unfold btw;
  repeat match goal with
  | |- context [?a <? ?b] => destruct (N.ltb_spec a b); try lia
  | |- context [?a <=? ?b] => destruct (N.leb_spec a b); try lia
  | |- context [?a =? ?b] => destruct (N.eqb_spec a b); try lia
  end; cbn [andb].

Lemma run_encode cp : scalar cp -> run_spec 0 (encode cp) = 0%nat.
Proof.
  intro Hs. unfold scalar in Hs. unfold encode.
  destruct (N.ltb_spec cp 0x80) as [H1|H1].
  { cbn [run_spec]. unfold step_spec. rewrite nb_by by lia. rng; try reflexivity. }
  destruct (N.ltb_spec cp 0x800) as [H2|H2].
  { cbn [run_spec]. unfold step_spec at 2. rewrite nb_by by lia. rng.
    unfold step_spec. rewrite nb_by by lia. rng; try reflexivity. }
  destruct (N.ltb_spec cp 0x10000) as [H3|H3].
  { cbn [run_spec].
    assert (Hl : step_spec 24 (by_ (0x80 + cp mod 64)) = 0%nat).
    { unfold step_spec. rewrite nb_by by lia. rng; try reflexivity. }
    assert (Hm : step_spec (step_spec 0 (by_ (0xE0 + cp / 4096))) (by_ (0x80 + (cp / 64) mod 64)) = 24%nat).
    { unfold step_spec at 2. rewrite nb_by by lia. rng; unfold step_spec; rewrite nb_by by lia; rng; try reflexivity. }
    rewrite Hm, Hl. reflexivity. }
  { cbn [run_spec].
    assert (Hl : step_spec 24 (by_ (0x80 + cp mod 64)) = 0%nat).
    { unfold step_spec. rewrite nb_by by lia. rng; try reflexivity. }
    assert (Hk : step_spec 36 (by_ (0x80 + (cp / 64) mod 64)) = 24%nat).
    { unfold step_spec. rewrite nb_by by lia. rng; try reflexivity. }
    assert (Hm : step_spec (step_spec 0 (by_ (0xF0 + cp / 262144))) (by_ (0x80 + (cp / 4096) mod 64)) = 36%nat).
    { unfold step_spec at 2. rewrite nb_by by lia. rng; unfold step_spec; rewrite nb_by by lia; rng; try reflexivity. }
    rewrite Hm, Hk, Hl. reflexivity. }
Qed.

Lemma encode_concat_run cps : Forall scalar cps -> run_spec 0 (concat (map encode cps)) = 0%nat.
Proof.
  induction cps as [|c cps IH]; intro H; [reflexivity|]. inversion H; subst.
  cbn [map concat]. rewrite run_spec_app, run_encode by assumption. auto.
Qed.

(* completeness: every accepted string starts with an encoded scalar value *)
Lemma by_eq n b : n = nb b -> by_ n = b.
Proof. intros ->. apply by_nb. Qed.

Ltac step_case H :=
  match type of H with
  | context [if ?c then _ else _] =>
      let E := fresh "E" in destruct c eqn:E;
      [|try (rewrite ?run_12 in H; discriminate H)]
  end.

Lemma accept_head b s : run_spec 0 (b :: s) = 0%nat ->
  exists cp r, scalar cp /\ b :: s = encode cp ++ r /\ run_spec 0 r = 0%nat.
Proof.
  intro H. pose proof (nb_lt b) as Hb.
  cbn [run_spec] in H. unfold step_spec in H at 1. unfold btw in H.
  (* final continuation byte from state 24 *)
  assert (C24 : forall s, run_spec 24 s = 0%nat -> exists y r, s = y :: r /\ 0x80 <= nb y <= 0xBF
                                                     /\ run_spec 0 r = 0%nat).
  { clear. intros [|y r] H; [discriminate|]. cbn [run_spec] in H. unfold step_spec, btw in H.
    step_case H. exists y, r. split; [reflexivity|]. split; [lia|exact H]. }
  assert (C36 : forall s, run_spec 36 s = 0%nat -> exists y z r, s = y :: z :: r
             /\ 0x80 <= nb y <= 0xBF /\ 0x80 <= nb z <= 0xBF /\ run_spec 0 r = 0%nat).
  { intros [|y r] Hr; [discriminate|]. cbn [run_spec] in Hr. unfold step_spec, btw in Hr.
    step_case Hr. apply C24 in Hr. destruct Hr as (z & r' & -> & Hz & Hr).
    exists y, z, r'. split; [reflexivity|]. repeat split; first [exact Hr|lia]. }
  destruct (nb b <? 0x80) eqn:E1.
  { exists (nb b), s. split; [unfold scalar; lia|]. split; [|exact H].
    unfold encode. rewrite E1. rewrite by_nb. reflexivity. }
  destruct ((0xC2 <=? nb b) && (nb b <=? 0xDF)) eqn:E2.
  { apply C24 in H. destruct H as (y & r & -> & Hy & Hr).
    exists (64 * (nb b - 0xC0) + (nb y - 0x80)), r.
    split; [unfold scalar; lia|]. split; [|exact Hr].
    unfold encode.
    destruct (N.ltb_spec (64 * (nb b - 0xC0) + (nb y - 0x80)) 0x80); [lia|].
    destruct (N.ltb_spec (64 * (nb b - 0xC0) + (nb y - 0x80)) 0x800); [|lia].
    cbn [app]. f_equal; [|f_equal]; symmetry; apply by_eq; lia. }
  (* three-byte forms *)
  assert (T3 : forall y s', 0xE0 <= nb b <= 0xEF -> 0x80 <= nb y <= 0xBF ->
                 (nb b = 0xE0 -> 0xA0 <= nb y) -> (nb b = 0xED -> nb y <= 0x9F) ->
                 s = y :: s' -> run_spec 24 s' = 0%nat ->
                 exists cp r, scalar cp /\ b :: s = encode cp ++ r /\ run_spec 0 r = 0%nat).
  { intros y s' Hbb Hyy H0 H1 Hs Hr. subst s. apply C24 in Hr. destruct Hr as (z & r & -> & Hz & Hr).
    exists (4096 * (nb b - 0xE0) + 64 * (nb y - 0x80) + (nb z - 0x80)), r.
    split; [unfold scalar; lia|]. split; [|exact Hr].
    unfold encode.
    set (cp := 4096 * (nb b - 0xE0) + 64 * (nb y - 0x80) + (nb z - 0x80)).
    assert (Hcp : cp = 4096 * (nb b - 0xE0) + 64 * (nb y - 0x80) + (nb z - 0x80)) by reflexivity.
    clearbody cp.
    destruct (N.ltb_spec cp 0x80); [lia|]. destruct (N.ltb_spec cp 0x800); [lia|].
    destruct (N.ltb_spec cp 0x10000); [|lia].
    cbn [app]. f_equal; [|f_equal; [|f_equal]]; symmetry; apply by_eq; lia. }
  destruct (nb b =? 0xE0) eqn:E3.
  { destruct s as [|y s']; [discriminate|]. cbn [run_spec] in H. unfold step_spec, btw in H.
    step_case H. apply (@T3 y s'); first [lia|reflexivity|exact H]. }
  destruct (nb b =? 0xED) eqn:E4.
  { destruct s as [|y s']; [discriminate|]. cbn [run_spec] in H. unfold step_spec, btw in H.
    step_case H. apply (@T3 y s'); first [lia|reflexivity|exact H]. }
  destruct ((0xE1 <=? nb b) && (nb b <=? 0xEF)) eqn:E5.
  { destruct s as [|y s']; [discriminate|]. cbn [run_spec] in H. unfold step_spec, btw in H.
    step_case H. apply (@T3 y s'); first [lia|reflexivity|exact H]. }
  (* four-byte forms *)
  assert (T4 : forall y s', 0xF0 <= nb b <= 0xF4 -> 0x80 <= nb y <= 0xBF ->
                 (nb b = 0xF0 -> 0x90 <= nb y) -> (nb b = 0xF4 -> nb y <= 0x8F) ->
                 s = y :: s' -> run_spec 36 s' = 0%nat ->
                 exists cp r, scalar cp /\ b :: s = encode cp ++ r /\ run_spec 0 r = 0%nat).
  { intros y s' Hbb Hyy H0 H1 Hs Hr. subst s. apply C36 in Hr.
    destruct Hr as (z & w & r & -> & Hz & Hw & Hr).
    exists (262144 * (nb b - 0xF0) + 4096 * (nb y - 0x80) + 64 * (nb z - 0x80) + (nb w - 0x80)), r.
    split; [unfold scalar; lia|]. split; [|exact Hr].
    unfold encode.
    set (cp := 262144 * (nb b - 0xF0) + 4096 * (nb y - 0x80) + 64 * (nb z - 0x80) + (nb w - 0x80)).
    assert (Hcp : cp = 262144 * (nb b - 0xF0) + 4096 * (nb y - 0x80) + 64 * (nb z - 0x80) + (nb w - 0x80)) by reflexivity.
    clearbody cp.
    destruct (N.ltb_spec cp 0x80); [lia|]. destruct (N.ltb_spec cp 0x800); [lia|].
    destruct (N.ltb_spec cp 0x10000); [lia|].
    cbn [app]. f_equal; [|f_equal; [|f_equal; [|f_equal]]]; symmetry; apply by_eq; lia. }
  destruct (nb b =? 0xF0) eqn:E6.
  { destruct s as [|y s']; [discriminate|]. cbn [run_spec] in H. unfold step_spec, btw in H.
    step_case H. apply (@T4 y s'); first [lia|reflexivity|exact H]. }
  destruct ((0xF1 <=? nb b) && (nb b <=? 0xF3)) eqn:E7.
  { destruct s as [|y s']; [discriminate|]. cbn [run_spec] in H. unfold step_spec, btw in H.
    step_case H. apply (@T4 y s'); first [lia|reflexivity|exact H]. }
  destruct (nb b =? 0xF4) eqn:E8.
  { destruct s as [|y s']; [discriminate|]. cbn [run_spec] in H. unfold step_spec, btw in H.
    step_case H. apply (@T4 y s'); first [lia|reflexivity|exact H]. }
  rewrite run_12 in H. discriminate.
Qed.

Lemma encode_nonempty cp : (0 < length (encode cp))%nat.
Proof.
  unfold encode. destruct (cp <? 0x80); [simpl; lia|].
  destruct (cp <? 0x800); [simpl; lia|]. destruct (cp <? 0x10000); simpl; lia.
Qed.

Lemma accept_utf8 : forall n s, (length s <= n)%nat -> run_spec 0 s = 0%nat -> utf8 s.
Proof.
  induction n as [|n IH]; intros s Hn H.
  - destruct s; [|simpl in Hn; lia]. exists []. split; [constructor|reflexivity].
  - destruct s as [|b s].
    + exists []. split; [constructor|reflexivity].
    + destruct (accept_head H) as (cp & r & Hcp & He & Hr).
      assert (Hlen : (length r <= n)%nat).
      { pose proof (encode_nonempty cp). apply (f_equal (@length _)) in He.
        rewrite app_length in He. simpl in He, Hn. lia. }
      destruct (IH r Hlen Hr) as (cps & Hf & Hcat).
      exists (cp :: cps). split; [constructor; assumption|].
      rewrite He, Hcat. reflexivity.
Qed.

Lemma validate_run s : utf8_validate s = Ok (Nat.eqb (run_spec 0 s) 0).
Proof.
  unfold utf8_validate. rewrite run_eq by (left; reflexivity). reflexivity.
Qed.

Lemma validate_exact s : exists b, utf8_validate s = Ok b /\ (b = true <-> utf8 s).
Proof.
  exists (Nat.eqb (run_spec 0 s) 0). split; [apply validate_run|].
  rewrite Nat.eqb_eq. split.
  - apply accept_utf8 with (n := length s). lia.
  - intros (cps & Hf & ->). apply encode_concat_run. exact Hf.
Qed.

Lemma validate_iff s : utf8_validate s = Ok true <-> utf8 s.
Proof.
  destruct (validate_exact s) as (b & E & H). rewrite E. rewrite <- H.
  split; [intro X; inversion X; reflexivity|intros ->; reflexivity].
Qed.
