(* URL encoding, file extensions and directories. *)
From Verif Require Import Base ReceiverSpec.

(* the value of a hexadecimal digit: its place in one of these lists *)
Fixpoint place (c : ascii) (l : bytes) : option N :=
  match l with
  | [] => None
  | x :: r => if Ascii.eqb x c then Some 0%N else option_map N.succ (place c r)
  end.
Definition hex_value (c : ascii) : option N :=
  match place c (B "0123456789abcdef") with Some n => Some n | None => place c (B "0123456789ABCDEF") end.

(* an encoded string and what it stands for, piece by piece *)
Inductive decodes : bytes -> bytes -> Prop :=
| D_nil : decodes [] []
| D_escape h l a b r v : hex_value h = Some a -> hex_value l = Some b -> decodes r v ->
    decodes ("%"%char :: h :: l :: r) (ascii_of_N (16 * a + b) :: v)
| D_plus r v : decodes r v -> decodes ("+"%char :: r) (" "%char :: v)
| D_other c r v : c <> "%"%char -> c <> "+"%char -> decodes r v -> decodes (c :: r) (c :: v)
| D_lone r v : (forall h l r', r = h :: l :: r' -> hex_value h = None \/ hex_value l = None) -> decodes r v ->
    decodes ("%"%char :: r) ("%"%char :: v).

(* percent-encoding: any choice of bytes may be left as they are *)
Definition hex_digit (n : N) : ascii := nth (N.to_nat n) (B "0123456789ABCDEF") "0"%char.
Definition escape (c : ascii) : bytes := ["%"%char; hex_digit (N_of_ascii c / 16); hex_digit (N_of_ascii c mod 16)].
Definition encode (keep : ascii -> bool) (s : bytes) : bytes := flat_map (fun c => if keep c then [c] else escape c) s.

(* the extension of the last component of a path *)
Definition plain_ext (ext : bytes) : Prop := ~ In "."%char ext /\ ~ In "/"%char ext /\ ~ In BSL ext.
Definition has_ext (name ext : bytes) : Prop := exists pre, pre <> [] /\ name = pre ++ "."%char :: ext /\ plain_ext ext.

(* a path as the kernel gives it is inside a directory *)
Definition inside (dir p : bytes) : Prop := p = dir \/ dir = B "/" \/ exists r, p = dir ++ B "/" ++ r.

(* an HTTP message: lines ended by CR LF until an empty one, then the body *)
Fixpoint http_line (s : bytes) : option (bytes * bytes) :=
  match s with
  | [] => None
  | c :: r =>
      match r with
      | d :: r' => if Ascii.eqb c CR && Ascii.eqb d LF then Some ([], r')
                   else match http_line r with Some (l, t) => Some (c :: l, t) | None => None end
      | [] => None
      end
  end.
Fixpoint http_message (fuel : nat) (s : bytes) : option (list bytes * bytes) :=
  match fuel with
  | 0 => None
  | S n =>
      match http_line s with
      | None => None
      | Some ([], body) => Some ([], body)
      | Some (l, t) => match http_message n t with Some (ls, body) => Some (l :: ls, body) | None => None end
      end
  end.
