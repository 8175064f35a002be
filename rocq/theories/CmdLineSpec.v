(* The command line of blogc, man/blogc.1: the words of a command line and what they ask for. *)
From Verif Require Import Base.

Inductive word : Type :=
| WFlag (c : ascii)                                   (* -d, -i, -l *)
| WValue (c : ascii) (v : bytes) (joined : bool)      (* -e, -t, -o, -p; "-tv" or "-t" "v" *)
| WDefine (k v : bytes) (joined : bool)               (* -D k=v *)
| WSource (f : bytes).
Definition opt (c : ascii) (v : bytes) (joined : bool) : list bytes :=
  if joined then ["-"%char :: c :: v] else [["-"%char; c]; v].
Definition spelled (w : word) : list bytes :=
  match w with
  | WFlag c => [["-"%char; c]]
  | WValue c v j => opt c v j
  | WDefine k v j => opt "D"%char (k ++ B "=" ++ v) j
  | WSource f => [f]
  end.

Definition flag (c : ascii) (ws : list word) : bool :=
  existsb (fun w => match w with WFlag x => x == c | _ => false end) ws.
(* the last of the values, if there is one *)
Fixpoint last_of {A} (f : word -> option A) (ws : list word) (d : option A) : option A :=
  match ws with [] => d | w :: r => last_of f r (match f w with Some v => Some v | None => d end) end.
Definition value_of (c : ascii) (w : word) : option bytes := match w with WValue x v _ => if x == c then Some v else None | _ => None end.
Definition defined_as (k : bytes) (w : word) : option bytes := match w with WDefine x v _ => if beq x k then Some v else None | _ => None end.
Definition entries (ws : list word) : list bytes := flat_map (fun w => match value_of "e"%char w with Some v => [v] | None => [] end) ws.
Definition sources (ws : list word) : list bytes := flat_map (fun w => match w with WSource f => [f] | _ => [] end) ws.
