(* Trees of files, for P_RmTree.v. *)
From Verif Require Import Base RmTree.

Definition below (d p : path) : Prop := exists r, p = d ++ r.
(* a disk: no path occurs twice, and every file is in a directory *)
Definition disk_ok (fs : files) : Prop :=
  NoDup (map fst fs) /\ forall p e, In (p, e) fs -> exists d n, p = d ++ [n] /\ at_ fs d = Some EDir.
(* [d] is the path of a directory, and no link is on the way to it *)
Definition real_dir (fs : files) (d : path) : Prop := forall q r, d = q ++ r -> at_ fs q = Some EDir.
Definition no_links_below (fs : files) (d : path) : Prop := forall q t, below d q -> at_ fs q <> Some (ELink t).
