(* What the variables on the use of time and memory show. *)
From Coq Require Export ZArith.
From Verif Require Import Base.
#[local] Open Scope Z_scope.

Definition value (d : bytes) : Z := fold_left (fun a c => 10 * a + (Z.of_N (nb c) - 48)) d 0.
(* the decimal digits of a number, without zeros before them *)
Definition number (d : bytes) (n : Z) : Prop :=
  Forall (fun c => In c (B "0123456789")) d /\ value d = n /\ d <> [] /\ (hd NUL d = "0"%char -> d = B "0").
(* a number of thousandths *)
Definition thousandths (t : bytes) (n : Z) : Prop :=
  exists i f, t = i ++ B "." ++ f /\ number i (n / 1000) /\ length f = 3%nat /\
    Forall (fun c => In c (B "0123456789")) f /\ value f = n mod 1000.

(* A time in microseconds: as it is if it is less than a second; the nearest number of
   milliseconds from there on, up to the precision of a float. *)
Definition cpu_text (t : Z) (txt : bytes) : Prop :=
  (t < 1000 /\ exists d, txt = d ++ B "us" /\ number d t) \/
  (1000 <= t < 1000000 /\ exists d, txt = d ++ B "ms" /\ (t mod 1000 = 0 /\ number d (t / 1000) \/ t mod 1000 <> 0 /\ thousandths d t)) \/
  (1000000 <= t /\ exists d n, txt = d ++ B "s" /\ thousandths d n /\
     2 ^ 24 * Z.abs (1000 * n - t) <= 2 ^ 24 * 500 + t /\ (t < 2 ^ 24 -> Z.abs (1000 * n - t) <= 500)).
(* A size in units of 1024 bytes: the nearest thousandth of the unit. *)
Definition memory_text (m : Z) (txt : bytes) : Prop :=
  (m < 1024 /\ exists d, txt = d ++ B "KB" /\ number d m) \/
  (1024 <= m < 1024 * 1024 /\ exists d n, txt = d ++ B "MB" /\ thousandths d n /\ Z.abs (1024 * n - 1000 * m) <= 512) \/
  (1024 * 1024 <= m /\ exists d n, txt = d ++ B "GB" /\ thousandths d n /\
     2 ^ 24 * Z.abs (1024 * 1024 * n - 1000 * m) <= 2 ^ 24 * 524288 + 1000 * m /\
     (m < 2 ^ 24 -> Z.abs (1024 * 1024 * n - 1000 * m) <= 524288)).
