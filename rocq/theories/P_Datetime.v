(* The date parser: property C18. *)
From Verif Require Import Base Datetime DatetimeProofs.
Open Scope Z_scope.

(* The full claim, [dt_parse s = inl t <-> denotes s t], fails: anything is
   accepted after the seconds. *)
Theorem C18_formats_refuted : exists s t, dt_parse s = inl t /\ ~ denotes s t.
Proof.
  exists (B "2016-02-28 10:20:30garbage"), (Tm 116 1 28 10 20 30). split; [vm_compute; reflexivity|].
  intro H. remember (B "2016-02-28 10:20:30garbage") as s eqn:E.
  assert (Hl : length s = 26%nat) by (subst; reflexivity). clear E.
  destruct H; unfold date_text, four, two in Hl; rewrite ?app_length in Hl; simpl in Hl; discriminate.
Qed.
Print Assumptions C18_formats_refuted.

(* What holds: the four formats with exactly their numbers, plus the full
   yyyy-mm-dd hh:mm:ss followed by anything. Missing from the claim: rejecting
   that tail. *)
Theorem C18_formats_partial : forall (s : bytes) (t : tm), dt_parse s = inl t <-> denotes_lax s t.
Proof. exact dt_parse_exact. Qed.
Print Assumptions C18_formats_partial.

(* What reaches strftime is what mktime makes of exactly these numbers. *)
Theorem C18_strftime_partial :
  forall (mktime : tm -> tm) (strftime : bytes -> tm -> option bytes) (s f : bytes) (t : tm),
  denotes_lax s t ->
  convert_datetime mktime strftime s f =
  match strftime f (mktime t) with Some out => inl out | None => inr FormatTooLong end.
Proof.
  intros. unfold convert_datetime. apply dt_parse_exact in H. rewrite H. reflexivity.
Qed.
Print Assumptions C18_strftime_partial.

(* and nothing else is ever formatted *)
Theorem C18_rejects : forall (mktime : tm -> tm) (strftime : bytes -> tm -> option bytes) (s f out : bytes),
  convert_datetime mktime strftime s f = inl out -> exists t, denotes_lax s t /\ strftime f (mktime t) = Some out.
Proof.
  intros mk st s f out H. unfold convert_datetime in H.
  destruct (dt_parse s) as [t|e] eqn:E; [|discriminate]. apply dt_parse_exact in E. exists t.
  split; [exact E|]. destruct (st f (mk t)); [congruence|discriminate].
Qed.
Print Assumptions C18_rejects.

Example C18_example :
  denotes (B "2016-02-28 10:20") (Tm 116 1 28 10 20 0)
  /\ dt_parse (B "2016-02-28 10:20") = inl (Tm 116 1 28 10 20 0)
  /\ dt_parse (B "2016-13-28") = inr (BadNumber Mo2 13)
  /\ dt_parse (B "2016-02-2") = inr TooShort.
Proof.
  split; [|vm_compute; repeat split].
  exact (@DMinute 2016 2 28 10 20 ltac:(unfold date_ok; lia) ltac:(lia) ltac:(lia)).
Qed.
