(* dirname(3), as blogc-make uses it. *)
From Verif Require Import Base Utils BlogcCmd P_Clean.
#[local] Arguments B : simpl never.

Definition slashes (s : bytes) : Prop := Forall (eq "/"%char) s.
Definition name (s : bytes) : Prop := s <> [] /\ Forall (fun c => c <> "/"%char) s.

Lemma rev_nil {A} (l : list A) : l <> [] -> rev l <> [].
Proof. intros H E. apply H. rewrite <- (rev_involutive l), E. reflexivity. Qed.
Lemma over_name nm r : name nm -> skip_slashes (rev nm ++ r) = rev nm ++ r.
Proof.
  intros (N & F). apply forall_rev in F. apply rev_nil in N. destruct (rev nm) as [|c t]; [congruence|]. inversion F; subst.
  cbn [app skip_slashes]. destruct (c == "/"%char) eqn:E; [apply eqb_true in E; contradiction|reflexivity].
Qed.
Lemma all_name nm : Forall (fun c => c <> "/"%char) nm -> skip_name nm = [].
Proof.
  induction 1 as [|c nm H _ IH]; [reflexivity|]. cbn [skip_name]. destruct (c == "/"%char) eqn:E; [apply eqb_true in E; contradiction|exact IH].
Qed.
Lemma all_slashes s : slashes s -> skip_slashes s = [].
Proof. intro H. rewrite <- (app_nil_r s). rewrite skip_slashes_over by exact H. reflexivity. Qed.
Lemma dirname_name nm tr d : name nm -> slashes tr ->
  dirname (d ++ nm ++ tr) = match skip_name (rev nm ++ rev d) with [] => B "." | s => match skip_slashes s with [] => root_dir (length s) | x => rev x end end.
Proof.
  intros N T. unfold dirname. rewrite !rev_app_distr, <- !app_assoc. rewrite skip_slashes_over by (apply forall_rev; exact T).
  rewrite over_name by exact N. destruct N as (N & _). apply rev_nil in N. destruct (rev nm); [congruence|]. reflexivity.
Qed.

(* C47: POSIX dirname. A path without slash but at its end is in "."; one below the root in "/", or "//" if it
   begins with exactly two slashes; any other is in what is before its last name, without the slashes between *)
Theorem C47_dirname : forall d sl nm tr, slashes sl -> name nm -> slashes tr ->
  dirname [] = B "." /\
  dirname (nm ++ tr) = B "." /\
  (sl <> [] -> dirname sl = (if Nat.eqb (length sl) 2 then B "//" else B "/")) /\
  (sl <> [] -> dirname (sl ++ nm ++ tr) = (if Nat.eqb (length sl) 2 then B "//" else B "/")) /\
  (sl <> [] -> (exists q c, d = q ++ [c] /\ c <> "/"%char) -> dirname (d ++ sl ++ nm ++ tr) = d).
Proof.
  intros d sl nm tr Hs Hn Ht. split; [reflexivity|]. split; [|split; [|split]].
  - rewrite <- (app_nil_l (nm ++ tr)). rewrite (dirname_name [] Hn Ht). cbn [rev]. rewrite app_nil_r, all_name by (apply forall_rev; apply Hn). reflexivity.
  - intro N. unfold dirname. rewrite all_slashes by (apply forall_rev; exact Hs). destruct sl; [congruence|reflexivity].
  - intro N. rewrite (dirname_name sl Hn Ht). pose proof (forall_rev Hs) as R. pose proof (rev_nil N) as M. rewrite <- (rev_length sl).
    destruct (rev sl) as [|c t]; [congruence|]. assert (c = "/"%char) as -> by (inversion R; auto).
    rewrite skip_name_over by (apply forall_rev; apply Hn). cbv iota zeta. rewrite (all_slashes R). reflexivity.
  - intros N (q & c & -> & Hc). rewrite (app_assoc _ sl). rewrite (dirname_name _ Hn Ht). rewrite rev_app_distr. pose proof (forall_rev Hs) as R. pose proof (rev_nil N) as M.
    destruct (rev sl) as [|x t]; [congruence|]. assert (x = "/"%char) as -> by (inversion R; auto). cbn [app].
    rewrite skip_name_over by (apply forall_rev; apply Hn). cbv iota zeta.
    change ("/"%char :: t ++ rev (q ++ [c])) with (("/"%char :: t) ++ rev (q ++ [c])). rewrite (skip_slashes_over _ R). rewrite rev_app_distr. cbn [rev app skip_slashes].
    destruct (c == "/"%char) eqn:E; [apply eqb_true in E; contradiction|]. cbn [rev]. rewrite rev_involutive. reflexivity.
Qed.
Print Assumptions C47_dirname.

Example C47_dirname_example : dirname (B "/usr//bin//blogc-make/") = B "/usr//bin" /\ dirname (B "//blogc-make") = B "//" /\ dirname (B "blogc-make") = B "." /\
  dirname (B "///blogc-make") = B "/".
Proof. repeat split; vm_compute; reflexivity. Qed.
