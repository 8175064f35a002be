(* What the settings of blogc-git-receiver mean, and how programs are named. *)
From Verif Require Import Base TrieProofs ConfigSpec ShSpec.

(* the base directory: BLOGC_GIT_RECEIVER_BASE_DIR, else HOME; and that of the builds:
   BLOGC_GIT_RECEIVER_BUILDS_DIR, else builds in the base directory *)
Definition base_is (base home : option bytes) (bd : bytes) : Prop := base = Some bd \/ base = None /\ home = Some bd.
Definition builds_is (builds base home : option bytes) (b : bytes) : Prop :=
  builds = Some b \/ builds = None /\ exists bd, base_is base home bd /\ b = bd ++ B "/builds".

(* the section [n] of the settings is that of the repository; [real] resolves paths *)
Definition section_of (real : bytes -> option bytes) (bd : bytes) (d : doc) (repo n : bytes) : Prop :=
  In (B "repo:" ++ n) (map fst (d_secs d)) /\ real (bd ++ B "/repos/" ++ n) = Some repo.
Definition setting (d : doc) (n key : bytes) : option bytes :=
  match doc_section d (B "repo:" ++ n) with Some body => last_value (keys_of body) key | None => None end.

(* the last component of the path is [n] *)
Definition named (p n : bytes) : Prop :=
  exists d sl, p = d ++ n ++ sl /\ (d = [] \/ exists d', d = d' ++ B "/") /\ Forall (eq "/"%char) sl.

Definition hexadecimal (s : bytes) : Prop := s <> [] /\ Forall (fun c => In c (B "0123456789abcdef")) s.

(* bytes that a shell takes as they are: outside quotes, and inside double quotes *)
Definition inert (s : bytes) : Prop :=
  s <> [] /\ Forall (fun c => sh_special c = false /\ ~ In c [SP; TAB; SQ; DQ; BSL]) s.
Definition inert_quoted (s : bytes) : Prop := Forall (fun c => sh_dspecial c = false /\ ~ In c [DQ; BSL]) s.
