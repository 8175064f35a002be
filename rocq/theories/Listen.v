(* Model of how blogc-runserver opens its socket: br_httpd_run, src/blogc-runserver/httpd.c
   251-345, up to the accept loop (Runserver.v). *)
From Verif Require Import Base Utils Content.

(* an address given by getaddrinfo (266-270; the list is never empty when it succeeds): its family,
   what br_httpd_get_ip and br_httpd_get_port (219-247) say, and whether socket, setsockopt and bind
   succeed for it; listen is asked once, for the socket that is bound *)
Record addr : Type := Addr
  { a_v6 : bool; a_ip : bytes; a_port : nat; a_socket : bool; a_option : bool; a_bind : bool; a_listen : bool }.

(* what is done; addresses and what is made for them are known by their place in the list.
   AHost: the text of the address is allocated; AFree: it is freed; ASay: it is printed *)
Inductive act : Type :=
| AHost (i : nat) | AFree (i : nat) | ASay (i : nat)
| ASocket (i : nat) | AClose (i : nat) | AListen (i : nat).

(* the for loop, 284-322. The result is the place of the address that is bound; None: goto cleanup or
   cleanup0, whose calls are included. For an empty list server_socket would be 0 (281): not modelled. *)
Fixpoint bind_loop (i : nat) (l : list addr) : list act * option (nat * addr) :=
  match l with
  | [] => ([], None)
  | a :: r =>
      let next (did : list act) (said : list act) :=            (* the test of rp->ai_next *)
        match r with
        | [] => (said, None)
        | _ => let (t, x) := bind_loop (S i) r in (did ++ t, x)
        end in
      if negb (a_socket a) then                                 (* 288-296 *)
        next [AHost i] [AHost i; ASay i; AFree i]
      else if negb (a_option a) then                            (* 297-308 *)
        next [AHost i; ASocket i; AClose i] [AHost i; ASocket i; ASay i; AClose i; AFree i]
      else if a_bind a then ([AHost i; ASocket i], Some (i, a)) (* 309-312 *)
      else                                                      (* 313-321 *)
        next [AHost i; ASocket i; AFree i; AClose i] [AHost i; ASocket i; ASay i; AClose i; AFree i]
  end.

(* 331-338: what is printed up to the number of threads *)
Definition running_on (a : addr) : bytes :=
  B " * Running on http://" ++
  (if a_v6 a then B "[" ++ a_ip a ++ B "]" else a_ip a) ++
  (if Nat.eqb (a_port a) 80 then [] else B ":" ++ dec (N.of_nat (a_port a))) ++ B "/".

(* 284-342: the calls, and what is announced when the accept loop is reached; None: the function
   returns 1. What the accept loop does at its end is the rest of cleanup (401-407). *)
Definition listen_on (l : list addr) : list act * option bytes :=
  match bind_loop 0 l with
  | (t, None) => (t, None)
  | (t, Some (i, a)) =>
      if a_listen a then (t ++ [AListen i; ASay i], Some (running_on a))
      else (t ++ [AListen i; ASay i; AClose i; AFree i], None)  (* 324-329 *)
  end.
