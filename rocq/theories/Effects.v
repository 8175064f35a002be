(* Programs that call the operating system: what they do next may depend on
   whether the calls succeed. *)
From Verif Require Import Base.

Inductive prog (A : Type) : Type :=
| Ret (rv : nat)
| Do (a : A) (k : bool -> prog A).
Arguments Ret {A}. Arguments Do {A}.

(* The traces of a program: the calls made so far and their outcomes; with the
   value returned if it is finished. A trace without value is a point where the
   program may be interrupted. *)
Inductive trace {A} : prog A -> list (A * bool) -> option nat -> Prop :=
| T_ret rv : trace (Ret rv) [] (Some rv)
| T_now p : trace p [] None
| T_do a k ok t r : trace (k ok) t r -> trace (Do a k) ((a, ok) :: t) r.

(* all calls that can be made satisfy [P] *)
Fixpoint only {A} (P : A -> Prop) (p : prog A) : Prop :=
  match p with
  | Ret _ => True
  | Do a k => P a /\ only P (k true) /\ only P (k false)
  end.
Lemma only_trace {A} (P : A -> Prop) p t r : only P p -> trace p t r -> Forall (fun x => P (fst x)) t.
Proof.
  intros Hp Ht. revert Hp. induction Ht as [rv|p|a k ok t r Ht IH]; intro Hp; [constructor|constructor|].
  destruct Hp as (H1 & H2 & H3). constructor; [exact H1|]. apply IH. destruct ok; assumption.
Qed.

(* the same with a state that the calls change: [P] may depend on it *)
Fixpoint only_in {A S} (next : S -> A -> bool -> S) (P : S -> A -> Prop) (s : S) (p : prog A) : Prop :=
  match p with
  | Ret _ => True
  | Do a k => P s a /\ only_in next P (next s a true) (k true) /\ only_in next P (next s a false) (k false)
  end.
(* the calls of a trace with the state in which they are made *)
Fixpoint stated {A S} (next : S -> A -> bool -> S) (s : S) (t : list (A * bool)) : list (S * A) :=
  match t with
  | [] => []
  | (a, ok) :: r => (s, a) :: stated next (next s a ok) r
  end.
Lemma only_in_trace {A S} (next : S -> A -> bool -> S) P p t r : trace p t r -> forall s, only_in next P s p ->
  Forall (fun x => P (fst x) (snd x)) (stated next s t).
Proof.
  induction 1 as [rv|p|a k ok t r Ht IH]; intros s Hp; [constructor|constructor|].
  destruct Hp as (H1 & H2 & H3). cbn [stated]. constructor; [exact H1|]. apply IH. destruct ok; assumption.
Qed.

(* ---------- calls that change a world ---------- *)
Section World.
Variables A W : Type.
Variable step : W -> A -> bool -> W -> Prop.        (* which outcomes are possible, and what they do *)

Inductive runs : W -> list (A * bool) -> W -> Prop :=
| R_nil w : runs w [] w
| R_cons w a ok w1 t w2 : step w a ok w1 -> runs w1 t w2 -> runs w ((a, ok) :: t) w2.

(* [Q] holds of the calls so far, the value returned and the world, at every point *)
Fixpoint always (p : prog A) (h : list (A * bool)) (w : W) (Q : list (A * bool) -> option nat -> W -> Prop) : Prop :=
  Q h None w /\
  match p with
  | Ret rv => Q h (Some rv) w
  | Do a k => forall ok w', step w a ok w' -> always (k ok) (h ++ [(a, ok)]) w' Q
  end.
Lemma always_runs p t r : trace p t r -> forall h w w' Q, always p h w Q -> runs w t w' -> Q (h ++ t) r w'.
Proof.
  induction 1 as [rv|p|a k ok t r Ht IH]; intros h w w' Q Ha Hr.
  - inversion Hr; subst. rewrite app_nil_r. apply Ha.
  - inversion Hr; subst. rewrite app_nil_r. destruct p; apply Ha.
  - inversion Hr as [|? ? ? w1 ? ? Hs Hr']; subst. cbn [always] in Ha. destruct Ha as [_ Ha]. specialize (Ha _ _ Hs).
    change (Q (h ++ [(a, ok)] ++ t) r w'). rewrite app_assoc. eapply IH; eassumption.
Qed.
End World.
Arguments R_nil {A W step}. Arguments R_cons {A W step}.
