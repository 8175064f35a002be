(* Model of src/blogc/datetime-parser.c (the HAVE_TIME_H branch). *)
From Verif Require Import Base.
Open Scope Z_scope.

(* blogc_datetime_state_t, 20-41 *)
Inductive dstate : Type :=
| Y1 | Y2 | Y3 | Y4 | Hy1 | Mo1 | Mo2 | Hy2 | Da1 | Da2 | Spc
| Ho1 | Ho2 | Co1 | Mi1 | Mi2 | Co2 | Se1 | Se2 | Done.

(* the fields of struct tm the parser writes (60-62); tm_isdst is -1 and the
   other fields are 0 throughout *)
Record tm : Type := Tm { tm_year : Z; tm_mon : Z; tm_mday : Z; tm_hour : Z; tm_min : Z; tm_sec : Z }.
Definition tm0 : tm := Tm 0 0 0 0 0 0.

(* *err. The message text (printf of the byte or number found) is kept as the
   kind of complaint only: bad digit or separator in a state, number out of
   range, string too short, strftime output too long. *)
Inductive derror : Type :=
| BadByte (st : dstate) (c : ascii)
| BadNumber (st : dstate) (n : Z)
| TooShort
| FormatTooLong.

Definition dig (hi : ascii) (c : ascii) : bool := in_range "0" hi c.   (* c >= '0' && c <= hi *)
Definition dval (c : ascii) : Z := Z.of_N (nb c) - 48.                 (* c - diff *)

Definition set_year t x := Tm x (tm_mon t) (tm_mday t) (tm_hour t) (tm_min t) (tm_sec t).
Definition set_mon t x := Tm (tm_year t) x (tm_mday t) (tm_hour t) (tm_min t) (tm_sec t).
Definition set_mday t x := Tm (tm_year t) (tm_mon t) x (tm_hour t) (tm_min t) (tm_sec t).
Definition set_hour t x := Tm (tm_year t) (tm_mon t) (tm_mday t) x (tm_min t) (tm_sec t).
Definition set_min t x := Tm (tm_year t) (tm_mon t) (tm_mday t) (tm_hour t) x (tm_sec t).
Definition set_sec t x := Tm (tm_year t) (tm_mon t) (tm_mday t) (tm_hour t) (tm_min t) x.

(* the switch, 71-323: new state, tmp and t, or the error *)
Definition dt_step (st : dstate) (tmp : Z) (t : tm) (c : ascii) : (dstate * Z * tm) + derror :=
  match st with
  | Y1 => if dig "9" c then inl (Y2, tmp + dval c * 1000, t) else inr (BadByte st c)
  | Y2 => if dig "9" c then inl (Y3, tmp + dval c * 100, t) else inr (BadByte st c)
  | Y3 => if dig "9" c then inl (Y4, tmp + dval c * 10, t) else inr (BadByte st c)
  | Y4 => if dig "9" c then
            let tmp := tmp + (dval c - 1900) in
            if tmp <? 0 then inr (BadNumber st (tmp + 1900)) else inl (Hy1, tmp, set_year t tmp)
          else inr (BadByte st c)
  | Hy1 => if c == "-"%char then inl (Mo1, 0, t) else inr (BadByte st c)
  | Mo1 => if dig "1" c then inl (Mo2, tmp + dval c * 10, t) else inr (BadByte st c)
  | Mo2 => if dig "9" c then
            let tmp := tmp + (dval c - 1) in
            if (tmp <? 0) || (tmp >? 11) then inr (BadNumber st (tmp + 1)) else inl (Hy2, tmp, set_mon t tmp)
          else inr (BadByte st c)
  | Hy2 => if c == "-"%char then inl (Da1, 0, t) else inr (BadByte st c)
  | Da1 => if dig "3" c then inl (Da2, tmp + dval c * 10, t) else inr (BadByte st c)
  | Da2 => if dig "9" c then
            let tmp := tmp + dval c in
            if (tmp <? 1) || (tmp >? 31) then inr (BadNumber st tmp) else inl (Spc, tmp, set_mday t tmp)
          else inr (BadByte st c)
  | Spc => if c == SP then inl (Ho1, 0, t) else inr (BadByte st c)
  | Ho1 => if dig "2" c then inl (Ho2, tmp + dval c * 10, t) else inr (BadByte st c)
  | Ho2 => if dig "9" c then
            let tmp := tmp + dval c in
            if (tmp <? 0) || (tmp >? 23) then inr (BadNumber st tmp) else inl (Co1, tmp, set_hour t tmp)
          else inr (BadByte st c)
  | Co1 => if c == ":"%char then inl (Mi1, 0, t) else inr (BadByte st c)
  | Mi1 => if dig "5" c then inl (Mi2, tmp + dval c * 10, t) else inr (BadByte st c)
  | Mi2 => if dig "9" c then
            let tmp := tmp + dval c in
            if (tmp <? 0) || (tmp >? 59) then inr (BadNumber st tmp) else inl (Co2, tmp, set_min t tmp)
          else inr (BadByte st c)
  | Co2 => if c == ":"%char then inl (Se1, 0, t) else inr (BadByte st c)
  | Se1 => if dig "6" c then inl (Se2, tmp + dval c * 10, t) else inr (BadByte st c)
  | Se2 => if dig "9" c then
            let tmp := tmp + dval c in
            if (tmp <? 0) || (tmp >? 60) then inr (BadNumber st tmp) else inl (Done, tmp, set_sec t tmp)
          else inr (BadByte st c)
  | Done => inl (Done, tmp, t)
  end.

(* the for loop, 68-327, over the bytes before the NUL *)
Fixpoint dt_loop (st : dstate) (tmp : Z) (t : tm) (s : bytes) : (dstate * tm) + derror :=
  match s with
  | [] => inl (st, t)
  | c :: r => match dt_step st tmp t c with
              | inl (st', tmp', t') => dt_loop st' tmp' t' r
              | inr e => inr e
              end
  end.

(* 329-359: the struct tm handed to mktime *)
Definition dt_parse (orig : bytes) : tm + derror :=
  match dt_loop Y1 0 tm0 orig with
  | inr e => inr e
  | inl (st, t) =>
      match st with
      | Spc | Co1 | Co2 | Done => inl t
      | _ => inr TooShort
      end
  end.

Section Libc.
(* mktime normalises the struct in place; strftime is given the 1024-byte buffer
   and answers None for 0 (does not fit, or empty result) *)
Variable mktime : tm -> tm.
Variable strftime : bytes -> tm -> option bytes.

(* blogc_convert_datetime, 44-373 *)
Definition convert_datetime (orig format : bytes) : bytes + derror :=
  match dt_parse orig with
  | inr e => inr e
  | inl t => match strftime format (mktime t) with
             | Some out => inl out
             | None => inr FormatTooLong
             end
  end.
End Libc.
