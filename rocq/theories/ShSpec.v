(* Specification: how a POSIX shell (Shell Command Language, sections 2.2, 2.3
   and 2.6.5-2.6.7) splits a simple command into words and removes quotes, for
   text without expansions. It is written from the standard, independently of
   blogc. Anything outside this fragment (an unquoted operator, newline,
   expansion, pattern, comment, tilde or history character, or an expansion
   inside double quotes) makes the text "not plain": the result is None. *)
From Verif Require Import Base.

Inductive sh_mode : Type :=
| Blank                       (* between words *)
| Word (w : bytes)            (* inside word w, outside quotes *)
| Esc (w : bytes)             (* after an unquoted backslash *)
| Single (w : bytes)          (* inside '...' *)
| Double (w : bytes)          (* inside "..." *)
| DEsc (w : bytes).           (* after a backslash inside "..." *)

Record sh_state : Type := Sh { sh_done : list bytes; sh_mode_of : sh_mode }.

(* bytes the shell interprets when they are not quoted *)
Definition sh_special (c : ascii) : bool :=
  existsb (Ascii.eqb c)
    (B "|&;<>()$`*?[#~{}!" ++ [LF; NUL]).
Definition sh_dspecial (c : ascii) : bool :=
  existsb (Ascii.eqb c) (B "$`!" ++ [NUL]).

Definition sh_unquoted (done : list bytes) (w : option bytes) (c : ascii) : option sh_state :=
  let cur := match w with Some w => w | None => [] end in
  if (c == SP) || (c == TAB) then
    Some (Sh (match w with Some w => done ++ [w] | None => done end) Blank)
  else if c == SQ then Some (Sh done (Single cur))
  else if c == DQ then Some (Sh done (Double cur))
  else if c == BSL then Some (Sh done (Esc cur))
  else if sh_special c then None
  else Some (Sh done (Word (cur ++ [c]))).

Definition sh_step (s : sh_state) (c : ascii) : option sh_state :=
  let done := sh_done s in
  match sh_mode_of s with
  | Blank => sh_unquoted done None c
  | Word w => sh_unquoted done (Some w) c
  | Esc w => if (c == LF) || (c == NUL) then None else Some (Sh done (Word (w ++ [c])))
  | Single w => if c == NUL then None
                else if c == SQ then Some (Sh done (Word w))
                else Some (Sh done (Single (w ++ [c])))
  | Double w =>
      if c == DQ then Some (Sh done (Word w))
      else if c == BSL then Some (Sh done (DEsc w))
      else if sh_dspecial c then None
      else Some (Sh done (Double (w ++ [c])))
  | DEsc w =>
      if (c == LF) || (c == NUL) then None
      else if existsb (Ascii.eqb c) (B "$`" ++ [DQ; BSL])
      then Some (Sh done (Double (w ++ [c])))
      else Some (Sh done (Double (w ++ [BSL; c])))
  end.

Fixpoint sh_run (s : sh_state) (x : bytes) : option sh_state :=
  match x with
  | [] => Some s
  | c :: r => match sh_step s c with Some s' => sh_run s' r | None => None end
  end.

(* the words of a complete command line *)
Definition sh_words (x : bytes) : option (list bytes) :=
  match sh_run (Sh [] Blank) x with
  | Some (Sh done Blank) => Some done
  | Some (Sh done (Word w)) => Some (done ++ [w])
  | _ => None
  end.

Lemma sh_run_app s x y :
  sh_run s (x ++ y) = match sh_run s x with Some s' => sh_run s' y | None => None end.
Proof.
  revert s. induction x as [|c x IH]; intro s; [reflexivity|].
  simpl. destruct (sh_step s c); [apply IH|reflexivity].
Qed.
