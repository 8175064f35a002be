(* Model of blogc_source_parse, src/blogc/source-parser.c. *)
From Coq Require Import ZArith.
From Verif Require Import Base Utils Trie Toctree Content.

(* blogc_source_parser_state_t, 14-22 *)
Inductive sstate : Type := SStart | SKey | SValueStart | SValue | SSep | SContentStart | SContent.

(* the error: its message and, for bc_error_parser, the offset it points at *)
Record serror : Type := SErr { se_msg : bytes; se_at : option nat }.

(* *err stays NULL, or is set *)
Inductive outcome (A : Type) : Type := Good (a : A) | Bad (e : serror).
Arguments Good {A}. Arguments Bad {A}.

(* the local variables, 32-41; [tmp] and [content] are not kept *)
Record sst : Type := Sst { s_state : sstate; s_start : nat; s_key : option bytes; s_rv : trie bytes }.
Definition sst0 : sst := Sst SStart 0 None (@trie_new bytes).

(* strtol (s, &endptr, 10): the number and what follows it. Digits accumulate
   without bound; the result saturates at the limits of a 64-bit long. *)
Fixpoint digits_value (s : bytes) (acc : Z) : Z * bytes :=
  match s with
  | c :: r => if is_digit c then digits_value r (acc * 10 + (Z.of_N (nb c) - 48))%Z else (acc, s)
  | [] => (acc, [])
  end.
Fixpoint skip_space (s : bytes) : bytes :=
  match s with c :: r => if isspace c then skip_space r else s | [] => [] end.
Definition clamp_long (z : Z) : Z := Z.max (- 2 ^ 63) (Z.min (2 ^ 63 - 1) z).
Definition strtol (s : bytes) : Z * bytes :=
  let t := skip_space s in
  let '(neg, u) := match t with
                   | c :: r => if c == "-"%char then (true, r) else if c == "+"%char then (false, r) else (false, t)
                   | [] => (false, [])
                   end in
  match u with
  | c :: _ => if is_digit c then let '(z, r) := digits_value u 0 in (clamp_long (if neg then - z else z)%Z, r)
              else (0%Z, s)
  | [] => (0%Z, s)
  end.
(* the conversion of a long to int: its low 32 bits *)
Definition to_int (z : Z) : Z :=
  let m := (z mod 2 ^ 32)%Z in if (m <? 2 ^ 31)%Z then m else (m - 2 ^ 32)%Z.

(* the names tested in 70-91 *)
Definition forbidden : list bytes :=
  [B "FILENAME"; B "CONTENT"; B "DATE_FORMATTED"; B "DATE_FIRST_FORMATTED"; B "DATE_LAST_FORMATTED"; B "PAGE_FIRST";
   B "PAGE_PREVIOUS"; B "PAGE_CURRENT"; B "PAGE_NEXT"; B "PAGE_LAST"; B "BLOGC_VERSION"].

Definition opt_insert (t : trie bytes) (k : bytes) (v : option bytes) : trie bytes :=
  match v with
  | None => t
  | Some v => match trie_lookup t k with None => trie_insert t k v | Some _ => t end
  end.

(* 147-208: the content, at the last byte. [fuel] bounds the nesting of
   blockquotes, see Content.v. endl is the line ending the content parser leaves
   in *endl, which is never NULL there. *)
Definition source_content (fuel : nat) (src : bytes) (maxdepth : Z) (current : nat) (s : sst)
  : res (outcome sst) :=
  let tmp := strndup (skipn (s_start s) src) (length src - s_start s) in
  let rv := trie_insert (s_rv s) (B "RAW_CONTENT") tmp in
  let read_headers := match trie_lookup rv (B "TOCTREE") with None => true | Some _ => false end in
  do b <- content_parse fuel (BO true true true read_headers) tmp None ;
  let rv := opt_insert rv (B "FIRST_HEADER") (b_fh b) in               (* 158-168 *)
  let rv := opt_insert rv (B "DESCRIPTION") (b_desc b) in              (* 169-179 *)
  let finish rv :=                                                     (* 205-207 *)
    let rv := trie_insert rv (B "CONTENT") (b_rv b) in
    let rv := trie_insert rv (B "EXCERPT") (if Nat.eqb (b_exc b) 0 then b_rv b else strndup (b_rv b) (b_exc b)) in
    Ok (Good (Sst (s_state s) (s_start s) (s_key s) rv)) in
  match b_hdrs b with                                                  (* 180-203 *)
  | [] => finish rv
  | _ =>
      let depth := match trie_lookup rv (B "TOCTREE_MAXDEPTH") with
                   | None => Some maxdepth
                   | Some m => let '(z, r) := strtol m in
                               match m, r with
                               | _ :: _, _ :: _ => None
                               | _, _ => Some (to_int z)
                               end
                   end in
      match depth with
      | None => Ok (Bad (SErr (B "Invalid value for 'TOCTREE_MAXDEPTH' variable: " ++
                               match trie_lookup rv (B "TOCTREE_MAXDEPTH") with Some m => m | None => [] end ++ B ".") (Some current)))
      | Some d =>
          do t <- toctree_render (b_hdrs b) d (Some (b_le b)) ;
          finish (match t with None => rv | Some t => trie_insert rv (B "TOCTREE") t end)
      end
  end.

(* the switch, 46-210 *)
Definition source_step (fuel : nat) (src : bytes) (maxdepth : Z) (current : nat) (c : ascii) (s : sst)
  : res (outcome sst) :=
  let 'Sst st start key rv := s in
  match st with
  | SStart =>                                                          (* 48-63 *)
      if (c == SP) || (c == TAB) || (c == LF) || (c == CR) then Ok (Good s)
      else if is_upper c then Ok (Good (Sst SKey current key rv))
      else if c == "-"%char then Ok (Good (Sst SSep start key rv))
      else Ok (Bad (SErr (B "Can't find a configuration key or the content separator.") (Some current)))
  | SKey =>                                                            (* 65-103 *)
      if is_upper c || is_digit c || (c == "_"%char) then Ok (Good s)
      else if c == ":"%char then
        let k := strndup (skipn start src) (current - start) in
        if existsb (beq (firstn (current - start) (skipn start src))) forbidden
        then Ok (Bad (SErr (B "'" ++ k ++ B "' variable is forbidden in source files. It will be set for you by the compiler.") None))
        else Ok (Good (Sst SValueStart start (Some k) rv))
      else Ok (Bad (SErr (B "Invalid configuration key.") (Some current)))
  | SValueStart =>                                                     (* 105-115 *)
      if negb (is_nl c) then Ok (Good (Sst SValue current key rv))
      else match key with
           | None => UB
           | Some k => Ok (Good (Sst SStart start None (trie_insert rv k [])))
           end
  | SValue =>                                                          (* 117-126 *)
      if is_nl c then
        match key with
        | None => UB
        | Some k => Ok (Good (Sst SStart start None (trie_insert rv k (strip (strndup (skipn start src) (current - start))))))
        end
      else Ok (Good s)
  | SSep =>                                                            (* 128-138 *)
      if c == "-"%char then Ok (Good s)
      else if is_nl c then Ok (Good (Sst SContentStart start key rv))
      else Ok (Bad (SErr (B "Invalid content separator. Must be more than one '-' characters.") (Some current)))
  | SContentStart =>                                                   (* 140-145 *)
      if is_nl c then Ok (Good s) else Ok (Good (Sst SContent current key rv))
  | SContent =>                                                        (* 147-209 *)
      if Nat.eqb current (length src - 1) then source_content fuel src maxdepth current s else Ok (Good s)
  end.

(* the while loop, 43-216: [rest] is src from current on, so src[current] is its
   first byte *)
Fixpoint source_loop (fuel : nat) (src : bytes) (maxdepth : Z) (rest : bytes) (current : nat) (s : sst)
  : res (outcome sst) :=
  match rest with
  | [] => Ok (Good s)
  | c :: r =>
      do x <- source_step fuel src maxdepth current c s ;
      match x with
      | Good s => source_loop fuel src maxdepth r (current + 1) s
      | Bad e => Ok (Bad e)
      end
  end.

(* 218-248 *)
Definition source_finish (len : nat) (s : sst) : res (outcome (trie bytes)) :=
  let name := match s_key s with Some k => Ok k | None => UB end in
  if Nat.eqb (trie_size (s_rv s)) 0 then
    match s_state s with
    | SStart => Ok (Bad (SErr (B "Your source file is empty.") (Some len)))
    | SKey => Ok (Bad (SErr (B "Your last configuration key is missing ':' and the value") (Some len)))
    | SValueStart => do k <- name ; Ok (Bad (SErr (B "Configuration value not provided for '" ++ k ++ B "'.") (Some len)))
    | SValue => do k <- name ; Ok (Bad (SErr (B "No line ending after the configuration value for '" ++ k ++ B "'.") (Some len)))
    | _ => Ok (Good (s_rv s))
    end
  else Ok (Good (s_rv s)).

(* blogc_source_parse, 25-257 *)
Definition source_parse (fuel : nat) (src : bytes) (maxdepth : Z) : res (outcome (trie bytes)) :=
  do x <- source_loop fuel src maxdepth src 0 sst0 ;
  match x with
  | Good s => source_finish (length src) s
  | Bad e => Ok (Bad e)
  end.
