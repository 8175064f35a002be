(* Model of the functions behind the variables of src/blogc/funcvars.c: rusage.c and
   sysinfo.c, built with all of HAVE_RUSAGE, HAVE_SYSINFO_HOSTNAME and
   HAVE_SYSINFO_DATETIME. What the operating system answers is given; None is a failure.
   The numbers are formatted by blogc_rusage_format_cpu_time and _format_memory, see
   Rusage.v. *)
From Verif Require Import Base Trie Renderer.

Record os : Type := Os
  { os_usage : option (bytes * bytes)      (* blogc_rusage_get, rusage.c 21-39: CPU time and memory, formatted *)
  ; os_hostname : option bytes             (* sysinfo.c 29-49 *)
  ; os_datetime : option bytes             (* sysinfo.c 81-101 *)
  ; os_username : option bytes             (* sysinfo.c 63-67 *)
  ; os_docker : bool }.                    (* sysinfo.c 121-140: what its first call returns; a second call
                                              is only made if that was false, and returns false *)

Definition put (name : bytes) (v : option bytes) (g : vars) : vars :=
  match v with Some v => trie_insert g name v | None => g end.

(* blogc_rusage_inject, rusage.c 68-81 *)
Definition rusage_inject (o : os) (g : vars) : vars :=
  match os_usage o with
  | None => g
  | Some (t, m) => trie_insert (trie_insert g (B "BLOGC_RUSAGE_CPU_TIME") t) (B "BLOGC_RUSAGE_MEMORY") m
  end.
(* blogc_sysinfo_inject_hostname, _username, _datetime and _inside_docker, sysinfo.c
   52-60, 70-78, 104-112, 143-148; funcs[], funcvars.c 14-35 *)
Definition os_funcs (o : os) : list (bytes * (vars -> vars)) :=
  [ (B "BLOGC_RUSAGE_CPU_TIME", rusage_inject o)
  ; (B "BLOGC_RUSAGE_MEMORY", rusage_inject o)
  ; (B "BLOGC_SYSINFO_HOSTNAME", put (B "BLOGC_SYSINFO_HOSTNAME") (os_hostname o))
  ; (B "BLOGC_SYSINFO_DATETIME", put (B "BLOGC_SYSINFO_DATETIME") (os_datetime o))
  ; (B "BLOGC_SYSINFO_USERNAME", put (B "BLOGC_SYSINFO_USERNAME") (os_username o))
  ; (B "BLOGC_SYSINFO_INSIDE_DOCKER", put (B "BLOGC_SYSINFO_INSIDE_DOCKER") (if os_docker o then Some (B "1") else None)) ].
