(* Model of src/blogc-make/httpd.c and of the locks, flags and the SIGINT handler of
   src/blogc-make/reloader.c: the main thread, the thread of the server, and signals,
   interleaved in any way. Reading and writing a flag is one step (httpd.c guards all of
   them by a lock; reloader.c 64 reads [running] without one). Reloading and building is
   one step that touches none of the flags: Ctx.v, Rules.v. *)
From Verif Require Import Base.

(* the two threads; an owner of a mutex is one of them *)
Inductive tid : Type := Main | Server.

(* where the main thread is: bm_httpd_run, httpd.c 53-112, then bm_reloader_run,
   reloader.c 32-81. Lines of httpd.c up to M_sleep. *)
Inductive mpc : Type :=
| M_lock0 | M_read0 | M_unlock0 (seen : bool)          (* 57-59, the test 61 *)
| M_create                                             (* 87 *)
| M_lock (count : nat) | M_read (count : nat) | M_unlock (count : nat) (seen : bool)   (* 97-99, the test 101 *)
| M_sleep (count : nat)                                (* 104-110 *)
| M_hlock | M_hset | M_hunlock                         (* reloader.c 44-46 *)
| M_install                                            (* 49-57 *)
| M_rlock | M_rset | M_runlock                         (* 60-62 *)
| M_loop | M_turn                                      (* 64, 65-77 *)
| M_return (rv : nat).

(* where the thread of the server is: httpd_thread, httpd.c 28-50, with bm_reloader_stop,
   reloader.c 84-111 *)
Inductive spc : Type :=
| S_none                                               (* not created *)
| S_lock1 | S_set1 | S_unlock1                         (* 33-35 *)
| S_exec                                               (* 37: until blogc-runserver ends *)
| S_lock2 (rv : nat) | S_set2 (rv : nat) | S_unlock2 (rv : nat)   (* 40-42 *)
| S_slock (rv : nat) | S_sset (rv : nat) | S_sunlock (rv : nat)   (* 47: reloader.c 87-90, 110 *)
| S_end (rv : nat).
(* where a handler of SIGINT is, running on top of a thread: bm_reloader_stop(SIGINT + 128) *)
Inductive gpc : Type := G_lock | G_set | G_raise | G_unlock.
Definition sigint : nat := 130.

Record state : Type := State
  { main : mpc; server : spc; signal : option (tid * gpc);
    starting : bool; h_owner : option tid;             (* mutex_httpd_starting *)
    running : bool; status : nat; r_owner : option tid; (* mutex_running *)
    installed : bool;                                  (* sig_handler is the handler of SIGINT *)
    ended : bool }.                                    (* the old handler ended the process *)

Definition init : state := State M_lock0 S_none None false None false 0 None false false.

(* no handler runs on top of [t] *)
Definition free (s : state) (t : tid) : Prop :=
  ended s = false /\ match signal s, t with Some (Main, _), Main | Some (Server, _), Server => False | _, _ => True end.
Definition set_main (s : state) (m : mpc) : state :=
  State m (server s) (signal s) (starting s) (h_owner s) (running s) (status s) (r_owner s) (installed s) (ended s).
Definition set_server (s : state) (p : spc) : state :=
  State (main s) p (signal s) (starting s) (h_owner s) (running s) (status s) (r_owner s) (installed s) (ended s).
Definition set_signal (s : state) (g : option (tid * gpc)) : state :=
  State (main s) (server s) g (starting s) (h_owner s) (running s) (status s) (r_owner s) (installed s) (ended s).
Definition set_starting (s : state) (b : bool) : state :=
  State (main s) (server s) (signal s) b (h_owner s) (running s) (status s) (r_owner s) (installed s) (ended s).
Definition set_h (s : state) (o : option tid) : state :=
  State (main s) (server s) (signal s) (starting s) o (running s) (status s) (r_owner s) (installed s) (ended s).
Definition set_running (s : state) (b : bool) : state :=
  State (main s) (server s) (signal s) (starting s) (h_owner s) b (status s) (r_owner s) (installed s) (ended s).
Definition set_status (s : state) (n : nat) : state :=
  State (main s) (server s) (signal s) (starting s) (h_owner s) (running s) n (r_owner s) (installed s) (ended s).
Definition set_r (s : state) (o : option tid) : state :=
  State (main s) (server s) (signal s) (starting s) (h_owner s) (running s) (status s) o (installed s) (ended s).
Definition set_installed (s : state) (b : bool) : state :=
  State (main s) (server s) (signal s) (starting s) (h_owner s) (running s) (status s) (r_owner s) b (ended s).
Definition set_ended (s : state) : state :=
  State (main s) (server s) (signal s) (starting s) (h_owner s) (running s) (status s) (r_owner s) (installed s) true.

(* the main thread *)
Inductive main_step : state -> state -> Prop :=
| MS_lock0 s : main s = M_lock0 -> h_owner s = None -> main_step s (set_main (set_h s (Some Main)) M_read0)
| MS_read0 s : main s = M_read0 -> main_step s (set_main s (M_unlock0 (starting s)))
| MS_unlock0 s b : main s = M_unlock0 b -> main_step s (set_main (set_h s None) (if b then M_return 1 else M_create))
| MS_create s : main s = M_create -> main_step s (set_main (set_server s S_lock1) (M_lock 0))
| MS_lock s n : main s = M_lock n -> h_owner s = None -> main_step s (set_main (set_h s (Some Main)) (M_read n))
| MS_read s n : main s = M_read n -> main_step s (set_main s (M_unlock n (starting s)))
| MS_unlock s n b : main s = M_unlock n b -> main_step s (set_main (set_h s None) (if b then M_hlock else M_sleep n))
| MS_sleep s n : main s = M_sleep n -> main_step s (set_main s (if Nat.ltb 100 (S n) then M_return 1 else M_lock (S n)))
| MS_installed s : main s = M_hlock -> installed s = true -> main_step s (set_main s M_rlock)   (* 41 *)
| MS_hlock s : main s = M_hlock -> installed s = false -> r_owner s = None -> main_step s (set_main (set_r s (Some Main)) M_hset)
| MS_hset s : main s = M_hset -> main_step s (set_main s M_hunlock)
| MS_hunlock s : main s = M_hunlock -> main_step s (set_main (set_r s None) M_install)
| MS_install s : main s = M_install -> main_step s (set_main (set_installed s true) M_rlock)
| MS_rlock s : main s = M_rlock -> r_owner s = None -> main_step s (set_main (set_r s (Some Main)) M_rset)
| MS_rset s : main s = M_rset -> main_step s (set_main (set_running s true) M_runlock)
| MS_runlock s : main s = M_runlock -> main_step s (set_main (set_r s None) M_loop)
| MS_loop s : main s = M_loop -> main_step s (set_main s (if running s then M_turn else M_return (status s)))
| MS_turn s : main s = M_turn -> main_step s (set_main s M_loop).

(* the calls that may fail: pthread_create and what is before it, 70-92; sigaction,
   reloader.c 37-40 and 53-57 *)
Inductive main_fails : state -> state -> Prop :=
| MF_create s : main s = M_create -> main_fails s (set_main s (M_return 1))
| MF_sigaction s : main s = M_hlock -> main_fails s (set_main s (M_return 1))
| MF_install s : main s = M_install -> main_fails s (set_main s (M_return 1)).

(* the thread of the server; blogc-runserver ends when it likes, with any status *)
Inductive server_step : state -> state -> Prop :=
| SS_lock1 s : server s = S_lock1 -> h_owner s = None -> server_step s (set_server (set_h s (Some Server)) S_set1)
| SS_set1 s : server s = S_set1 -> server_step s (set_server (set_starting s true) S_unlock1)
| SS_unlock1 s : server s = S_unlock1 -> server_step s (set_server (set_h s None) S_exec)
| SS_exec s rv : server s = S_exec -> server_step s (set_server s (S_lock2 rv))
| SS_lock2 s rv : server s = S_lock2 rv -> h_owner s = None -> server_step s (set_server (set_h s (Some Server)) (S_set2 rv))
| SS_set2 s rv : server s = S_set2 rv -> server_step s (set_server (set_starting s false) (S_unlock2 rv))
| SS_unlock2 s rv : server s = S_unlock2 rv -> server_step s (set_server (set_h s None) (S_slock rv))
| SS_slock s rv : server s = S_slock rv -> r_owner s = None -> server_step s (set_server (set_r s (Some Server)) (S_sset rv))
| SS_sset s rv : server s = S_sset rv -> server_step s (set_server (set_status (set_running s false) rv) (S_sunlock rv))
| SS_sunlock s rv : server s = S_sunlock rv -> server_step s (set_server (set_r s None) (S_end rv)).

(* SIGINT arrives at a thread that exists, once the handler is there; it is blocked in
   that thread while the handler runs (one at a time is enough here). The handler raises
   it again for the old handler, which ends the process or does not. *)
Inductive signal_step : state -> state -> Prop :=
| GS_main s : installed s = true -> signal s = None -> signal_step s (set_signal s (Some (Main, G_lock)))
| GS_server s : installed s = true -> signal s = None -> server s <> S_none -> (forall rv, server s <> S_end rv) ->
    signal_step s (set_signal s (Some (Server, G_lock)))
| GS_lock s t : signal s = Some (t, G_lock) -> r_owner s = None -> signal_step s (set_signal (set_r s (Some t)) (Some (t, G_set)))
| GS_set s t : signal s = Some (t, G_set) -> signal_step s (set_signal (set_status (set_running s false) sigint) (Some (t, G_raise)))
| GS_raise s t : signal s = Some (t, G_raise) -> signal_step s (set_signal (set_installed s false) (Some (t, G_unlock)))
| GS_unlock s t (kills : bool) : signal s = Some (t, G_unlock) ->
    signal_step s (if kills then set_ended (set_signal (set_r s None) None) else set_signal (set_r s None) None).

(* the process goes on until main returns or the old handler ends it *)
Definition over (s : state) : Prop := ended s = true \/ exists rv, main s = M_return rv.
Inductive step (signals : bool) : state -> state -> Prop :=
| By_main s s' : ~ over s -> free s Main -> main_step s s' -> step signals s s'
| By_failure s s' : ~ over s -> free s Main -> main_fails s s' -> step signals s s'
| By_server s s' : ~ over s -> free s Server -> server_step s s' -> step signals s s'
| By_signal s s' : signals = true -> ~ over s -> signal_step s s' -> step signals s s'.
Inductive steps (signals : bool) : state -> state -> Prop :=
| Now s : steps signals s s
| More s1 s2 s3 : steps signals s1 s2 -> step signals s2 s3 -> steps signals s1 s3.
