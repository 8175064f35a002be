(* Model of src/blogc/rusage.c: the CPU time and the memory, formatted; and of the test
   of sysinfo.c whether blogc runs inside docker. *)
From Coq Require Export ZArith.
From Verif Require Import Base Utils Content Loader FuncVars.
#[local] Open Scope Z_scope.
#[local] Arguments B : simpl never.

(* A quotient as double (53 bit significand, round to nearest, ties to even): [m / 2 ^ k], for
   [0 < a < b * 2 ^ 52]. Smaller quotients than rusage.c has, which would be denormal, are
   not treated. *)
Definition double_div (a b : Z) : Z * Z :=
  let k0 := 52 - (Z.log2 a - Z.log2 b) in
  let k := if a * 2 ^ k0 <? 2 ^ 52 * b then k0 + 1 else k0 in
  (round_even (a * 2 ^ k) b, k).
Definition dec_z (n : Z) : bytes := dec (Z.to_N n).
(* printf, conversion %.<p>f of a double *)
Definition pad3 (n : Z) : bytes := dec_z (n / 100 mod 10) ++ dec_z (n / 10 mod 10) ++ dec_z (n mod 10).
Definition fixed3 (x : Z * Z) : bytes :=
  let n := round_even (fst x * 1000) (2 ^ snd x) in dec_z (n / 1000) ++ B "." ++ pad3 (n mod 1000).
Definition fixed0 (x : Z * Z) : bytes := dec_z (round_even (fst x) (2 ^ snd x)).

(* blogc_rusage_format_cpu_time, rusage.c 42-54, of a time that is not negative; line 53 prints
   a long long with %d, which the C standard leaves undefined: here the number is printed, as
   with the usual calling conventions *)
Definition format_cpu_time (time : Z) : bytes :=
  if 1000000 <=? time then fixed3 (double_div (float_of time) 1000000) ++ B "s"
  else if 1000 <=? time then
    (if time mod 1000 =? 0 then fixed0 (double_div (float_of time) 1000) else fixed3 (double_div (float_of time) 1000)) ++ B "ms"
  else dec_z time ++ B "us".
(* blogc_rusage_format_memory, rusage.c 57-65; the same holds for its last line *)
Definition format_memory (mem : Z) : bytes :=
  if 1048576 <=? mem then fixed3 (double_div (float_of mem) 1048576) ++ B "GB"
  else if 1024 <=? mem then fixed3 (double_div (float_of mem) 1024) ++ B "MB"
  else dec_z mem ++ B "KB".

(* what getrusage tells: user and system time in seconds and microseconds, ru_maxrss *)
Record rusage : Type := RU { ru_us : Z; ru_uus : Z; ru_ss : Z; ru_sus : Z; ru_mem : Z }.
(* blogc_rusage_get, rusage.c 21-39, with the formatting of blogc_rusage_inject, 75-78 *)
Definition usage_text (r : option rusage) : option (bytes * bytes) :=
  match r with
  | None => None
  | Some r => Some (format_cpu_time (ru_us r * 1000000 + ru_uus r + ru_ss r * 1000000 + ru_sus r), format_memory (ru_mem r))
  end.

(* strstr as a test *)
Fixpoint has (s p : bytes) : bool := starts_with s p || match s with [] => false | _ :: r => has r p end.
(* blogc_sysinfo_get_inside_docker, sysinfo.c 117-140: the two static variables
   inside_docker_evaluated and inside_docker; the file /proc/1/cgroup, None is an error. Line
   137 declares another variable inside_docker, so that the static one keeps its value. *)
Definition get_docker (st : bool * bool) (file : option bytes) : (bool * bool) * bool :=
  let '(evaluated, inside) := st in
  if evaluated then (st, inside)
  else match file with
       | None => ((true, false), false)
       | Some c => ((true, inside), has (cstr c) (B "/docker/"))
       end.
