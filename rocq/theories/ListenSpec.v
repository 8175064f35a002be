(* Resources, the address that is to be used, and how an address is read from a URL. *)
From Verif Require Import Base Listen ErrPrintSpec.

(* the texts and the sockets that are held after some calls; None if one that is not held is used,
   freed or closed, or one that is held is made again *)
Definition has (l : list nat) (i : nat) : bool := existsb (Nat.eqb i) l.
Definition drop (l : list nat) (i : nat) : list nat := filter (fun x => negb (Nat.eqb i x)) l.
Fixpoint held (hosts socks : list nat) (t : list act) : option (list nat * list nat) :=
  match t with
  | [] => Some (hosts, socks)
  | AHost i :: t => if has hosts i then None else held (i :: hosts) socks t
  | AFree i :: t => if has hosts i then held (drop hosts i) socks t else None
  | ASay i :: t => if has hosts i then held hosts socks t else None
  | ASocket i :: t => if has socks i then None else held hosts (i :: socks) t
  | AClose i :: t => if has socks i then held hosts (drop socks i) t else None
  | AListen i :: t => if has socks i then held hosts socks t else None
  end.

(* an address that can be bound *)
Definition works (a : addr) : Prop := a_socket a = true /\ a_option a = true /\ a_bind a = true.
(* the first address that can be bound, and its place *)
Definition first_working (l : list addr) (i : nat) (a : addr) : Prop :=
  exists l1 l2, l = l1 ++ a :: l2 /\ length l1 = i /\ works a /\ Forall (fun b => ~ works b) l1.

(* RFC 3986: the host of a URL is in brackets or ends at a colon or slash; the port is 80 if it is not given *)
Fixpoint host_until (s : bytes) : bytes * bytes :=
  match s with
  | [] => ([], [])
  | c :: r => if (c == ":"%char) || (c == "/"%char) then ([], s) else let (a, b) := host_until r in (c :: a, b)
  end.
Definition url_host (s : bytes) : bytes * bytes :=
  match s with
  | c :: r => if c == "["%char then cut "]"%char r else host_until s
  | [] => ([], [])
  end.
Definition url_port (s : bytes) : nat * bytes :=
  match s with
  | c :: r => if c == ":"%char then number_from 0 r else (80, s)
  | [] => (80, [])
  end.
(* host, port and the path *)
Definition url (s : bytes) : bytes * nat * bytes :=
  let (h, s1) := url_host (skipn 7 s) in let (p, s2) := url_port s1 in (h, p, s2).
