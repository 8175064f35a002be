(* Model of bc_error_parser, src/common/error.c 38-102. *)
From Verif Require Import Base Utils.

Record err_state : Type := ES { es_lineno : nat; es_linestart : nat; es_lineend : nat; es_pos : nat }.

Definition is_nl (c : ascii) : bool := (c == LF) || (c == CR).

(* the for loop, error.c 54-82. [rest] is src from index i on; lineend is only
   assigned right before the break (79-80). *)
Fixpoint err_loop (rest : bytes) (i src_len current : nat) (lineno linestart pos : nat)
  {struct rest} : err_state :=
  match rest with
  | [] => ES lineno linestart 0 pos
  | c :: r =>
      if Nat.ltb i current then
        let single :=
          if is_nl c                                             (* 70-76 *)
          then err_loop r (i + 1) src_len current (lineno + 1)
                 (if Nat.ltb (i + 1) src_len then i + 1 else linestart) 1
          else err_loop r (i + 1) src_len current lineno linestart (pos + 1) in
        match r with
        | d :: r' =>                                             (* (i + 1) < src_len *)
            if ((c == LF) && (d == CR)) || ((c == CR) && (d == LF))
            then err_loop r' (i + 2) src_len current (lineno + 1)   (* 60-68 *)
                   (if Nat.ltb (i + 2) src_len then i + 2 else linestart) 1
            else single
        | [] => single
        end
      else if is_nl c then ES lineno linestart i pos             (* 79-81 *)
      else err_loop r (i + 1) src_len current lineno linestart pos
  end.

(* error.c 84-96: what is reported besides the message: line number, position
   and the quoted line; None when the line is empty and nothing is added. The
   numbers are printed with %d although they are size_t (not modelled: they are
   taken as printed exactly). *)
Definition error_near (src : bytes) (current : nat) : option (nat * nat * bytes) :=
  let st := err_loop src 0 (length src) current 1 0 1 in
  let lineend := if Nat.leb (es_lineend st) (es_linestart st)
                    && Nat.leb (es_linestart st) (length src)
                 then length src else es_lineend st in
  let line := strndup (skipn (es_linestart st) src) (lineend - es_linestart st) in
  match line with
  | [] => None
  | _ => Some (es_lineno st, es_pos st, line)
  end.
