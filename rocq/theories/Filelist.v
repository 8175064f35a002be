(* Model of src/blogc/filelist-parser.c. *)
From Verif Require Import Base Utils.

(* blogc_filelist_parser_state_t, 7-10 *)
Inductive fstate : Type := FLineStart | FLine.

(* bc_str_strip(line->str) returns a pointer into the block of line->str: how
   far from its start (the bytes bc_str_lstrip walked over), and the string *)
Definition strip_at (s : bytes) : nat * bytes := (length (rstrip s) - length (lstrip (rstrip s)), strip s).

(* the inner loop over a comment, 31-35 *)
Fixpoint fl_comment (fuel : nat) (src : bytes) (current : nat) : res nat :=
  match fuel with
  | 0 => OutOfFuel
  | S fuel =>
      if Nat.ltb current (length src) then
        do c <- rd src current ;
        if (c == CR) || (c == LF) then Ok current else fl_comment fuel src (current + 1)
      else Ok current
  end.

(* while (current < src_len), 20-57 *)
Fixpoint fl_loop (fuel : nat) (src : bytes) (current : nat) (st : fstate) (line : bytes)
  (rv : list (nat * bytes)) : res (list (nat * bytes)) :=
  match fuel with
  | 0 => OutOfFuel
  | S fuel =>
      if Nat.ltb current (length src) then
        do c <- rd src current ;
        let is_last := Nat.eqb current (length src - 1) in
        match st with
        | FLineStart =>                                                        (* 28-41 *)
            if c == "#"%char then
              do e <- fl_comment (S (length src)) src current ;
              fl_loop fuel src (e + 1) FLineStart line rv
            else if (c == SP) || (c == TAB) || (c == CR) || (c == LF)
            then fl_loop fuel src (current + 1) FLineStart line rv
            else fl_loop fuel src current FLine line rv
        | FLine =>                                                             (* 43-53 *)
            if (c == CR) || (c == LF) || is_last then
              let line := if is_last && negb ((c == CR) || (c == LF)) then line ++ [c] else line in
              fl_loop fuel src (current + 1) FLineStart [] (rv ++ [strip_at (cstr line)])
            else fl_loop fuel src (current + 1) FLine (line ++ [c]) rv
        end
      else Ok rv
  end.

(* blogc_filelist_parse, 13-62: the list of pointers, each as the distance from
   the start of its memory block and the string it points to *)
Definition filelist_parse (src : bytes) : res (list (nat * bytes)) :=
  fl_loop (2 * length src + 2) src 0 FLineStart [] [].

(* bc_slist_free_full(sources, free), main.c: free on a pointer that is not the
   start of its block is undefined *)
Definition filelist_free (l : list (nat * bytes)) : res unit :=
  if forallb (fun p => Nat.eqb (fst p) 0) l then Ok tt else UB.
