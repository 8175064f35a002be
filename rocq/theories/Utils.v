(* Model of the string helpers of src/common/utils.c. Lengths are unbounded
   [nat]: the C code uses int indices in some places (lstrip, rstrip,
   starts_with), so the model assumes strings shorter than 2^31 bytes. *)
From Verif Require Import Base.

(* bc_strndup, utils.c 134-146: at most n bytes, cut at the first NUL. [s] is
   the buffer from the pointer on. *)
Definition strndup (s : bytes) (n : nat) : bytes := cstr (firstn n s).

(* bc_isspace, utils.c 187-190 *)
Definition isspace (c : ascii) : bool :=
  (c == SP) || (c == FF) || (c == LF) || (c == CR) || (c == TAB) || (c == VT).

(* bc_str_starts_with, utils.c 193-201 *)
Fixpoint starts_with (s p : bytes) : bool :=
  match p, s with
  | [], _ => true
  | a :: p', b :: s' => (a == b) && starts_with s' p'
  | _ :: _, [] => false
  end.

(* bc_str_ends_with, utils.c 204-212 *)
Definition ends_with (s x : bytes) : bool :=
  if Nat.ltb (length s) (length x) then false
  else beq (skipn (length s - length x) s) x.

(* the six blanks tested by lstrip/rstrip, utils.c 223-225 and 247-249 *)
Definition strip_blank (c : ascii) : bool :=
  (c == SP) || (c == TAB) || (c == LF) || (c == CR) || (c == FF) || (c == VT).

(* bc_str_lstrip, utils.c 215-236: the loop index walks over the string; the
   model returns the bytes from the returned pointer on. *)
Fixpoint lstrip (s : bytes) : bytes :=
  match s with
  | [] => []
  | c :: r => if negb (strip_blank c) then s else lstrip r
  end.

(* bc_str_rstrip, utils.c 240-260: [n] is i + 1. *)
Fixpoint rstrip_from (s : bytes) (n : nat) : bytes :=
  match n with
  | 0 => s                                       (* loop not entered: s is empty *)
  | S i =>
      if negb (strip_blank (nth i s NUL)) then firstn (i + 1) s
      else if Nat.eqb i 0 then []
      else rstrip_from s i
  end.
Definition rstrip (s : bytes) : bytes := rstrip_from s (length s).

(* bc_str_strip, utils.c 263-267 *)
Definition strip (s : bytes) : bytes := lstrip (rstrip s).

(* bc_str_split, utils.c 270-291. [tok] is str[start..i), [rest] is str from i;
   the last iteration is the one reading the terminating NUL. *)
Fixpoint split_go (c : ascii) (max_pieces count : nat) (tok rest : bytes) : list bytes :=
  match rest with
  | [] => [tok]
  | x :: r =>
      if (x == c) && ((Nat.eqb max_pieces 0) || (Nat.ltb (count + 1) max_pieces))
      then tok :: split_go c max_pieces (S count) [] r
      else split_go c max_pieces count (tok ++ [x]) r
  end.
Definition str_split (s : bytes) (c : ascii) (max_pieces : nat) : list bytes :=
  match s with
  | [] => []                                    (* str[0] == '\0': break *)
  | _ => split_go c max_pieces 0 [] s
  end.

(* bc_strv_join, utils.c 365-377 *)
Fixpoint strv_join (v : list bytes) (sep : bytes) : bytes :=
  match v with
  | [] => []
  | x :: r => x ++ (match r with [] => [] | _ => sep end) ++ strv_join r sep
  end.

(* bc_str_replace, utils.c 294-305 (strv_join never fails here: pieces and
   replacement are not NULL). *)
Definition str_replace (s : bytes) (search : ascii) (replace : bytes) : bytes :=
  strv_join (str_split s search 0) replace.

(* bc_str_find, utils.c 308-326, on a C string [s] stored in a block that ends
   with the terminating NUL: the buffer read is [s ++ [NUL]], reading after it
   is undefined. The result is the index of the found byte. [rest] is the
   buffer from i on. *)
Fixpoint str_find_go (rest : bytes) (i : nat) (c : ascii) {struct rest} : res (option nat) :=
  match rest with
  | [] => UB                                     (* str[i] read past the block *)
  | x :: r =>
      if x == NUL then Ok None
      else if x == BSL then
        (* i++; continue; then the loop does i++ again *)
        match r with
        | [] => UB
        | _ :: r' => str_find_go r' (i + 2) c
        end
      else if x == c then Ok (Some i)
      else str_find_go r (i + 1) c
  end.
Definition str_find (s : bytes) (c : ascii) : res (option nat) :=
  if c == NUL then Ok (Some (length s)) else str_find_go (s ++ [NUL]) 0 c.

(* ASCII lower-casing used by strcasecmp in the C locale *)
Definition to_lower (c : ascii) : ascii :=
  if is_upper c then ascii_of_N (nb c + 32) else c.
Definition strcaseeq (x y : bytes) : bool := beq (map to_lower x) (map to_lower y).

(* bc_str_to_bool, utils.c 329-351; None is a NULL pointer. strcasecmp is
   modelled for ASCII letters. *)
Definition str_to_bool (s : option bytes) : bool :=
  match s with
  | None => false
  | Some s =>
      if beq s (B "1") then true
      else if strcaseeq s (B "y") then true
      else if strcaseeq s (B "yes") then true
      else if strcaseeq s (B "true") then true
      else if strcaseeq s (B "on") then true
      else false
  end.

(* bc_string_append_escaped, utils.c 494-511: what gets appended *)
Fixpoint unescape_go (escaped : bool) (s : bytes) : bytes :=
  match s with
  | [] => []
  | c :: r =>
      if (c == BSL) && negb escaped then unescape_go true r
      else c :: unescape_go false r
  end.
Definition unescape (s : bytes) : bytes := unescape_go false s.

(* bc_shell_quote, utils.c 697-718 *)
Fixpoint shell_quote_body (s : bytes) : bytes :=
  match s with
  | [] => []
  | c :: r =>
      (if c == "!"%char then B "'\!'"
       else if c == SQ then B "'\''"
       else [c]) ++ shell_quote_body r
  end.
Definition shell_quote (s : option bytes) : bytes :=
  [SQ] ++ (match s with Some s => shell_quote_body s | None => [] end) ++ [SQ].
