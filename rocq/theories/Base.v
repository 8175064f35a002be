(* Shared vocabulary: bytes, C strings, outcomes. *)
From Coq Require Export String Ascii.
From Coq Require Export List Arith NArith ZArith Lia Bool.
From Coq Require Export ZifyBool ZifyNat ZifyN.
Export ListNotations.
Open Scope list_scope.
Open Scope nat_scope.
#[export] Set Implicit Arguments.
#[export] Unset Strict Implicit.

(* A C buffer: a list of bytes. A C string is the list of the bytes before the
   NUL terminator. *)
Notation bytes := (list ascii).

(* String literals as byte lists. *)
Definition B (s : string) : bytes := list_ascii_of_string s.

(* Byte equality, C [==] on char. *)
Infix "==" := Ascii.eqb (at level 70, no associativity).
#[global] Arguments Ascii.eqb : simpl never.

Definition NUL : ascii := "000"%char.
Definition TAB : ascii := "009"%char.
Definition LF : ascii := "010"%char.
Definition VT : ascii := "011"%char.
Definition FF : ascii := "012"%char.
Definition CR : ascii := "013"%char.
Definition SP : ascii := " "%char.
Definition DQ : ascii := """"%char.
Definition SQ : ascii := "'"%char.
Definition BSL : ascii := "\"%char.

(* Numeric value of a byte, as unsigned char. *)
Definition nb (c : ascii) : N := N_of_ascii c.

Definition in_range (lo hi : ascii) (c : ascii) : bool :=
  ((nb lo <=? nb c) && (nb c <=? nb hi))%N.
Definition is_upper (c : ascii) : bool := in_range "A" "Z" c.
Definition is_lower (c : ascii) : bool := in_range "a" "z" c.
Definition is_digit (c : ascii) : bool := in_range "0" "9" c.

Fixpoint beq (x y : bytes) : bool :=
  match x, y with
  | [], [] => true
  | a :: x', b :: y' => (a == b) && beq x' y'
  | _, _ => false
  end.

(* The prefix of a buffer before its first NUL: what C string functions see. *)
Fixpoint cstr (x : bytes) : bytes :=
  match x with
  | [] => []
  | c :: r => if c == NUL then [] else c :: cstr r
  end.

Definition no_nul (x : bytes) : Prop := ~ In NUL x.
Definition no_nulb (x : bytes) : bool := forallb (fun c => negb (c == NUL)) x.

(* src[lo .. hi) *)
Definition sub (src : bytes) (lo hi : nat) : bytes := firstn (hi - lo) (skipn lo src).

(* Outcomes: a value, undefined behaviour of the C code, or fuel exhaustion of
   the model (always proved unreachable). *)
Inductive res (A : Type) : Type :=
| Ok (a : A)
| UB
| OutOfFuel.
Arguments Ok {A} a.
Arguments UB {A}.
Arguments OutOfFuel {A}.

Definition rbind {A C : Type} (x : res A) (f : A -> res C) : res C :=
  match x with Ok a => f a | UB => UB | OutOfFuel => OutOfFuel end.
Notation "'do' x <- e1 ; e2" := (rbind e1 (fun x => e2))
  (at level 200, x pattern, e1 at level 100, e2 at level 200, right associativity).

(* src[i], undefined outside the buffer. *)
Definition rd (src : bytes) (i : nat) : res ascii :=
  match nth_error src i with Some c => Ok c | None => UB end.

(* All 256 bytes. *)
Definition all_bytes : bytes := map (fun n => ascii_of_nat n) (seq 0 256).

Lemma all_bytes_complete : forall c, In c all_bytes.
Proof.
  intro c. unfold all_bytes. apply in_map_iff. exists (nat_of_ascii c).
  split; [apply ascii_nat_embedding|].
  apply in_seq. pose proof (nat_ascii_bounded c). lia.
Qed.

(* A decidable statement about every byte can be checked by computation. *)
Lemma forall_bytes (P : ascii -> bool) :
  forallb P all_bytes = true -> forall c, P c = true.
Proof.
  intros H c. rewrite forallb_forall in H. apply H, all_bytes_complete.
Qed.

Lemma eqb_true (a b : ascii) : (a == b) = true <-> a = b.
Proof. apply Ascii.eqb_eq. Qed.
Lemma eqb_false (a b : ascii) : (a == b) = false <-> a <> b.
Proof. apply Ascii.eqb_neq. Qed.
Lemma eqb_refl (a : ascii) : (a == a) = true.
Proof. apply Ascii.eqb_refl. Qed.
Lemma eqb_sym (a b : ascii) : (a == b) = (b == a).
Proof. apply Ascii.eqb_sym. Qed.

Lemma beq_eq (x y : bytes) : beq x y = true <-> x = y.
Proof.
  revert y; induction x as [|a x IH]; destruct y as [|b y]; simpl; split;
    try congruence; intro H.
  - apply andb_true_iff in H. destruct H as [H1 H2].
    apply eqb_true in H1. apply IH in H2. congruence.
  - inversion H; subst. rewrite eqb_refl. simpl. apply IH. reflexivity.
Qed.
Lemma beq_refl (x : bytes) : beq x x = true.
Proof. apply beq_eq. reflexivity. Qed.
Lemma beq_neq (x y : bytes) : beq x y = false <-> x <> y.
Proof.
  split; intro H.
  - intro E. apply beq_eq in E. congruence.
  - destruct (beq x y) eqn:E; [|reflexivity]. apply beq_eq in E. contradiction.
Qed.
Lemma beq_spec (x y : bytes) : reflect (x = y) (beq x y).
Proof.
  destruct (beq x y) eqn:E; constructor; [apply beq_eq|apply beq_neq]; assumption.
Qed.

Lemma bytes_dec (x y : bytes) : {x = y} + {x <> y}.
Proof. apply list_eq_dec, ascii_dec. Defined.

Lemma no_nulb_spec x : no_nulb x = true <-> no_nul x.
Proof.
  unfold no_nulb, no_nul. rewrite forallb_forall. split.
  - intros H Hin. specialize (H _ Hin). rewrite eqb_refl in H. discriminate.
  - intros H c Hc. destruct (c == NUL) eqn:E; [|reflexivity].
    apply eqb_true in E. subst. contradiction.
Qed.

Lemma no_nul_cons c x : no_nul (c :: x) <-> c <> NUL /\ no_nul x.
Proof. unfold no_nul; simpl; split; intro H; [split; intro|intros [?|?]]; try tauto; destruct H; auto. Qed.

Lemma no_nul_app x y : no_nul (x ++ y) <-> no_nul x /\ no_nul y.
Proof. unfold no_nul. rewrite in_app_iff. tauto. Qed.

Lemma no_nul_nil : no_nul [].
Proof. intro H; inversion H. Qed.

Lemma cstr_no_nul x : no_nul (cstr x).
Proof.
  induction x as [|c x IH]; simpl; [apply no_nul_nil|].
  destruct (c == NUL) eqn:E; [apply no_nul_nil|].
  apply no_nul_cons. split; [apply eqb_false in E|]; assumption.
Qed.

Lemma cstr_id x : no_nul x -> cstr x = x.
Proof.
  induction x as [|c x IH]; simpl; intro H; [reflexivity|].
  apply no_nul_cons in H. destruct H as [H1 H2].
  apply eqb_false in H1. rewrite H1. f_equal. auto.
Qed.

(* positional lemmas *)
Lemma nth_error_mid (A : Type) (p : list A) (c : A) (q : list A) :
  nth_error (p ++ c :: q) (length p) = Some c.
Proof. rewrite nth_error_app2 by lia. rewrite Nat.sub_diag. reflexivity. Qed.

Lemma rd_mid p c q : rd (p ++ c :: q) (length p) = Ok c.
Proof. unfold rd. rewrite nth_error_mid. reflexivity. Qed.

Lemma rd_lt src i : i < length src -> exists c, rd src i = Ok c.
Proof.
  intro H. unfold rd. destruct (nth_error src i) as [c|] eqn:E; [eauto|].
  apply nth_error_None in E. lia.
Qed.

Lemma rd_ge src i : length src <= i -> rd src i = UB.
Proof.
  intro H. unfold rd. destruct (nth_error src i) as [c|] eqn:E; [|reflexivity].
  assert (i < length src) by (apply nth_error_Some; congruence). lia.
Qed.

Lemma sub_mid (p t q : bytes) : sub (p ++ t ++ q) (length p) (length p + length t) = t.
Proof.
  unfold sub. replace (length p + length t - length p) with (length t) by lia.
  rewrite skipn_app, skipn_all, Nat.sub_diag. simpl.
  rewrite firstn_app, Nat.sub_diag, firstn_all. simpl. apply app_nil_r.
Qed.

Lemma sub_length src lo hi : hi <= length src -> lo <= hi -> length (sub src lo hi) = hi - lo.
Proof. intros. unfold sub. rewrite firstn_length, skipn_length. lia. Qed.

Ltac inv H := inversion H; clear H; subst.

Lemma skipn_add (A : Type) (n m : nat) (l : list A) : skipn n (skipn m l) = skipn (m + n) l.
Proof.
  revert l. induction m as [|m IH]; intros [|x l]; simpl; try reflexivity; [apply skipn_nil|apply IH].
Qed.
