(* Model of src/blogc/content-parser.c: slugs, entities, descriptions, the inline
   parser and the block parser. *)
From Coq Require Import NArith.
From Verif Require Import Base Utils Toctree.

(* ------------------------------------------------------------------ *)
(* ** Small functions *)

(* the decimal digits printed for %d; [n] is never zero where it is used *)
Fixpoint dec_go (fuel : nat) (n : N) (acc : bytes) : bytes :=
  match fuel with
  | 0 => acc
  | S f => let acc := ascii_of_N (48 + n mod 10) :: acc in
           if N.eqb (n / 10) 0 then acc else dec_go f (n / 10) acc
  end.
Definition dec (n : N) : bytes := dec_go (S (N.to_nat (N.log2 n))) n [].

(* the loop body of blogc_slugify, 23-32 *)
Definition slug_char (c : ascii) : ascii :=
  if is_lower c then c
  else if is_digit c then c
  else if is_upper c then ascii_of_N (nb c + 32)
  else "-"%char.
(* blogc_slugify, 16-34; never called with NULL *)
Definition slugify (s : bytes) : bytes := map slug_char s.

(* htmlentities, 37-55 *)
Definition entity (c : ascii) : option bytes :=
  if c == "&"%char then Some (B "&amp;")
  else if c == "<"%char then Some (B "&lt;")
  else if c == ">"%char then Some (B "&gt;")
  else if c == DQ then Some (B "&quot;")
  else if c == SQ then Some (B "&#x27;")
  else if c == "/"%char then Some (B "&#x2F;")
  else None.
(* htmlentities_append, 58-66: the bytes appended *)
Definition esc1 (c : ascii) : bytes := match entity c with None => [c] | Some e => e end.
(* blogc_htmlentities, 69-78 *)
Definition htmlentities (s : bytes) : bytes := flat_map esc1 s.

Definition is_nl (c : ascii) : bool := (c == LF) || (c == CR).
Definition is_sp (c : ascii) : bool := (c == SP) || (c == TAB).

(* the loop of blogc_fix_description, 92-115; [seg] is paragraph[start..current),
   [newline] the variable of that name. When newline is set at the terminating
   NUL nothing is appended, so the text after the last newline is lost only when
   it is empty. *)
Fixpoint fixd_go (rest seg : bytes) (newline : bool) : bytes :=
  match rest with
  | [] => if newline then [] else strip seg
  | c :: r =>
      if is_nl c then
        if newline then fixd_go r (seg ++ [c]) newline
        else strip seg ++ [SP] ++ fixd_go r [] true
      else fixd_go r (seg ++ [c]) false
  end.
(* blogc_fix_description, 81-119 *)
Definition fix_description (p : bytes) : bytes := htmlentities (strip (fixd_go p [] false)).

(* reading a C string, the terminating NUL included *)
Definition crd (s : bytes) (i : nat) : res ascii := rd (s ++ [NUL]) i.
(* bc_strndup (src + lo, hi - lo) with size_t arithmetic: when hi < lo the
   difference wraps around to a number larger than any string *)
Definition dup (s : bytes) (lo hi : nat) : bytes :=
  if Nat.leb lo hi then firstn (hi - lo) (skipn lo s) else skipn lo s.

(* ------------------------------------------------------------------ *)
(* ** The inline parser *)

(* blogc_content_parser_inline_state_t, 151-172 *)
Inductive istate : Type :=
| IStart | IAst | IAst2 | IUnd | IUnd2 | ITick | ITick2
| ILinkStart | ILinkAuto | ILinkContent | ILinkUrlStart | ILinkUrl
| IImgStart | IImgAlt | IImgUrlStart | IImgUrl
| IEndash | IEmdash | IBreakStart | IBreak.

(* the variables of blogc_content_parse_inline_internal, 178-191; the
   temporaries tmp, tmp2 and tmp3 live only within one iteration (tmp2 of the
   last switch is freed at once), so they are not part of the state *)
Record ivars : Type := IV {
  i_state : istate; i_rv : bytes; i_start : nat; i_count : nat;
  i_slink : nat; i_link1 : option bytes }.
Definition iv0 : ivars := IV IStart [] 0 0 0 None.

Definition goto (st : istate) (v : ivars) : ivars :=
  IV st (i_rv v) (i_start v) (i_count v) (i_slink v) (i_link1 v).
(* append to rv and change state *)
Definition emit (x : bytes) (st : istate) (v : ivars) : ivars :=
  IV st (i_rv v ++ x) (i_start v) (i_count v) (i_slink v) (i_link1 v).

(* the do-while loops of 260-267, 306-313, 356-363 and 395-402. The result is
   tmp - src when the loop is left with tmp - src < src_len, which is through the
   break. When bc_str_find returns NULL, tmp - src is computed all the same
   (undefined in C; on a flat address space it is larger than src_len) and tmp is
   then incremented to 1, again out of range: the loop ends without result. *)
Fixpoint find_pair (fuel : nat) (s : bytes) (len pos : nat) (d : ascii) : res (option nat) :=
  match fuel with
  | 0 => OutOfFuel
  | S f =>
      do r <- str_find (skipn pos s) d ;
      match r with
      | None => Ok None
      | Some i =>
          let p := pos + i in
          do b <- (if Nat.ltb p len then do x <- crd s (p + 1) ; Ok (x == d) else Ok false) ;
          if b then Ok (Some p)
          else if Nat.ltb (p + 1) len then find_pair f s len (p + 1) d else Ok None
      end
  end.

(* 238-257 and 284-303: [d] is the marker *)
Definition emph1 (rec : bytes -> nat -> res bytes) (s : bytes) (len cur : nat) (d : ascii)
  (double : istate) (c : ascii) (v : ivars) : res (nat * ivars) :=
  if c == d then Ok (cur + 1, goto double v)
  else
    do r <- str_find (skipn cur s) d ;
    match r with
    | None => Ok (cur, emit [d] IStart v)
    | Some i =>
        if Nat.leb len (cur + i) then Ok (cur, emit [d] IStart v)
        else do t <- rec (skipn cur s) i ;
             Ok (cur + i + 1, emit (B "<em>" ++ t ++ B "</em>") IStart v)
    end.
(* 259-282 and 305-328 *)
Definition emph2 (rec : bytes -> nat -> res bytes) (s : bytes) (len cur : nat) (d : ascii)
  (v : ivars) : res (nat * ivars) :=
  do r <- find_pair (S len) s len cur d ;
  match r with
  | None => Ok (cur, emit [d; d] IStart v)
  | Some p => do t <- rec (skipn cur s) (p - cur) ;
              Ok (p + 2, emit (B "<strong>" ++ t ++ B "</strong>") IStart v)
  end.

(* one iteration of the loop of blogc_content_parse_inline_internal, 194-592:
   the new value of current and of the variables. [rec] is the recursive call
   on a pointer and a length. *)
Definition istep (rec : bytes -> nat -> res bytes) (s : bytes) (len cur : nat) (c : ascii)
  (v : ivars) : res (nat * ivars) :=
  let last := Nat.eqb cur (len - 1) in
  match i_state v with
  | IStart =>                                                        (* 198-236 *)
      if last then Ok (cur + 1, emit (esc1 c) IStart v)
      else if c == BSL then do x <- crd s (cur + 1) ; Ok (cur + 2, emit (esc1 x) IStart v)
      else if c == "*"%char then Ok (cur + 1, goto IAst v)
      else if c == "_"%char then Ok (cur + 1, goto IUnd v)
      else if c == "`"%char then Ok (cur + 1, goto ITick v)
      else if c == "["%char then Ok (cur + 1, goto ILinkStart v)
      else if c == "!"%char then Ok (cur + 1, goto IImgStart v)
      else if c == "-"%char then Ok (cur + 1, goto IEndash v)
      else if c == SP then Ok (cur + 1, goto IBreakStart v)
      else Ok (cur + 1, emit (esc1 c) IStart v)
  | IAst => emph1 rec s len cur "*" IAst2 c v
  | IAst2 => emph2 rec s len cur "*" v
  | IUnd => emph1 rec s len cur "_" IUnd2 c v
  | IUnd2 => emph2 rec s len cur "_" v
  | ITick =>                                                         (* 330-353 *)
      if c == "`"%char then Ok (cur + 1, goto ITick2 v)
      else
        do r <- str_find (skipn cur s) "`" ;
        match r with
        | None => Ok (cur, emit (B "`") IStart v)
        | Some i =>
            if Nat.leb len (cur + i) then Ok (cur, emit (B "`") IStart v)
            else Ok (cur + i + 1,
                     emit (B "<code>" ++ htmlentities (dup s cur (cur + i)) ++ B "</code>") IStart v)
        end
  | ITick2 =>                                                        (* 355-382 *)
      do r <- find_pair (S len) s len cur "`" ;
      match r with
      | None => Ok (cur, emit (B "``") IStart v)
      | Some p => Ok (p + 2, emit (B "<code>" ++ htmlentities (dup s cur p) ++ B "</code>") IStart v)
      end
  | ILinkStart =>                                                    (* 384-392 *)
      if c == "["%char then Ok (cur + 1, goto ILinkAuto v)
      else Ok (cur + 1, IV ILinkContent (i_rv v) (i_start v) 1 cur (i_link1 v))
  | ILinkAuto =>                                                     (* 394-420 *)
      do r <- find_pair (S len) s len cur "]" ;
      match r with
      | None => Ok (cur, emit (B "[[") IStart v)
      | Some p =>
          let t := unescape (dup s cur p) in
          Ok (p + 2, emit (B "<a href=""" ++ t ++ B """>" ++ t ++ B "</a>") IStart v)
      end
  | ILinkContent =>                                                  (* 422-437 *)
      if c == BSL then Ok (cur + 2, v)
      else if c == "["%char then
        Ok (cur + 1, IV ILinkContent (i_rv v) (i_start v) (i_count v + 1) (i_slink v) (i_link1 v))
      else if c == "]"%char then
        if Nat.eqb (i_count v) 1 then
          Ok (cur + 1, IV ILinkUrlStart (i_rv v) (i_start v) 0 (i_slink v) (Some (dup s (i_slink v) cur)))
        else Ok (cur + 1, IV ILinkContent (i_rv v) (i_start v) (i_count v - 1) (i_slink v) (i_link1 v))
      else Ok (cur + 1, v)
  | ILinkUrlStart =>                                                 (* 439-451 *)
      if is_sp c || is_nl c then Ok (cur + 1, v)
      else if c == "("%char then
        Ok (cur + 1, IV ILinkUrl (i_rv v) (cur + 1) (i_count v) (i_slink v) (i_link1 v))
      else Ok (i_slink v, IV IStart (i_rv v ++ B "[") (i_start v) (i_count v) 0 (i_link1 v))
  | ILinkUrl =>                                                      (* 453-473 *)
      if c == BSL then Ok (cur + 2, v)
      else if c == ")"%char then
        match i_link1 v with
        | None => UB                                                 (* strlen (NULL) *)
        | Some l =>
            do t <- rec l (length l) ;
            Ok (cur + 1, IV IStart (i_rv v ++ B "<a href=""" ++ unescape (dup s (i_start v) cur)
                                      ++ B """>" ++ t ++ B "</a>")
                            (i_start v) (i_count v) (i_slink v) None)
        end
      else Ok (cur + 1, v)
  | IImgStart =>                                                     (* 475-484 *)
      if c == "["%char then
        Ok (cur + 1, IV IImgAlt (i_rv v) (i_start v) (i_count v) (cur + 1) (i_link1 v))
      else Ok (cur, emit (B "!") IStart v)
  | IImgAlt =>                                                       (* 486-495 *)
      if c == BSL then Ok (cur + 2, v)
      else if c == "]"%char then
        Ok (cur + 1, IV IImgUrlStart (i_rv v) (i_start v) (i_count v) (i_slink v)
                        (Some (dup s (i_slink v) cur)))
      else Ok (cur + 1, v)
  | IImgUrlStart =>                                                  (* 497-510 *)
      if is_sp c || is_nl c then Ok (cur + 1, v)
      else if c == "("%char then
        Ok (cur + 1, IV IImgUrl (i_rv v) (cur + 1) (i_count v) (i_slink v) (i_link1 v))
      else Ok (i_slink v, IV IStart (i_rv v ++ B "![") (i_start v) (i_count v) 0 (i_link1 v))
  | IImgUrl =>                                                       (* 512-531 *)
      if c == BSL then Ok (cur + 2, v)
      else if c == ")"%char then
        (* bc_string_append_escaped ignores a NULL *)
        let alt := match i_link1 v with None => [] | Some l => unescape l end in
        Ok (cur + 1, IV IStart (i_rv v ++ B "<img src=""" ++ unescape (dup s (i_start v) cur)
                                  ++ B """ alt=""" ++ alt ++ B """>")
                        (i_start v) (i_count v) (i_slink v) None)
      else Ok (cur + 1, v)
  | IEndash =>                                                       (* 533-545 *)
      if c == "-"%char then
        if last then Ok (cur + 1, emit (B "&ndash;") IStart v) else Ok (cur + 1, goto IEmdash v)
      else Ok (cur, emit (B "-") IStart v)
  | IEmdash =>                                                       (* 547-555 *)
      if c == "-"%char then Ok (cur + 1, emit (B "&mdash;") IStart v)
      else Ok (cur, emit (B "&ndash;") IStart v)
  | IBreakStart =>                                                   (* 557-570 *)
      if c == SP then
        if last then Ok (cur + 1, emit (B "<br />") IStart v)
        else Ok (cur + 1, IV IBreak (i_rv v) (i_start v) 2 (i_slink v) (i_link1 v))
      else Ok (cur, emit [SP] IStart v)
  | IBreak =>                                                        (* 572-590 *)
      if c == SP then
        if last then Ok (cur + 1, emit (B "<br />") IStart v)
        else Ok (cur + 1, IV IBreak (i_rv v) (i_start v) (i_count v + 1) (i_slink v) (i_link1 v))
      else if is_nl c then Ok (cur + 1, emit (B "<br />" ++ [c]) IStart v)
      else Ok (cur, emit (repeat SP (i_count v)) IStart v)
  end.

(* the switch after the loop, 595-629. The string from start_link on is parsed
   to its end, not up to src_len. *)
Definition ifinish (rec : bytes -> nat -> res bytes) (s : bytes) (v : ivars) : res bytes :=
  let tail (x : bytes) :=
    let r := skipn (i_slink v) s in
    do t <- rec r (length r) ;
    Ok (i_rv v ++ x ++ B "[" ++ unescape t) in
  match i_state v with
  | IImgStart | IImgAlt | IImgUrlStart | IImgUrl => tail (B "!")
  | ILinkContent | ILinkUrlStart | ILinkUrl => tail []
  | _ => Ok (i_rv v)
  end.

(* blogc_content_parse_inline_internal, 175-636, from position [cur] on: [s] is
   the C string at src (without its NUL), [len] is src_len. Each iteration and
   each recursive call takes one unit of fuel. The link text lost when a link is
   given up (447-451, 505-510) is a leak and is not modelled. *)
Fixpoint inl (fuel : nat) (s : bytes) (len cur : nat) (v : ivars) : res bytes :=
  match fuel with
  | 0 => OutOfFuel
  | S f =>
      let rec := fun s' len' => inl f s' len' 0 iv0 in
      if Nat.leb len cur then ifinish rec s v
      else do c <- crd s cur ;
           do x <- istep rec s len cur c v ;
           inl f s len (fst x) (snd x)
  end.

(* fuel that is always enough, see InlineProofs.v *)
Fixpoint ifuel (n : nat) : nat :=
  match n with
  | 0 => 1
  | S m => (n + 2) * (n + 10) + ifuel m
  end.
(* blogc_content_parse_inline, 639-643 *)
Definition inline (s : bytes) : res bytes := inl (ifuel (length s)) s (length s) 0 iv0.

(* ------------------------------------------------------------------ *)
(* ** The block parser *)

Fixpoint digit_count (s : bytes) : nat :=
  match s with c :: r => if is_digit c then S (digit_count r) else 0 | [] => 0 end.
(* the loop of 664: from [i], at most up to prefix_len *)
Fixpoint skip_sp (s : bytes) (n : nat) : nat :=
  match n, s with
  | S n, c :: r => if is_sp c then S (skip_sp r n) else 0
  | _, _ => 0
  end.
(* blogc_is_ordered_list_item, 646-670; never called with NULL *)
Definition is_ordered_item (s : bytes) (plen : nat) : bool :=
  if Nat.ltb (length s) 2 then false
  else
    let i := digit_count s in
    if Nat.eqb i 0 then false
    else if negb (nth i s NUL == "."%char) then false
    else
      let i := i + 1 + skip_sp (skipn (i + 1) s) (plen - (i + 1)) in
      if Nat.leb (length s) i then false
      else Nat.eqb i plen.

(* blogc_content_parser_state_t, 122-148 *)
Inductive bstate : Type :=
| BStart | BExcerpt | BExcerptEnd | BHeader | BHeaderTitleStart | BHeaderTitle
| BHtml | BHtmlEnd | BQuote | BQuoteStart | BQuoteEnd | BCode | BCodeStart | BCodeEnd
| BListOrRule | BRuleOrEmph | BRule | BUlStart | BUlEnd
| BOl | BOlSpace | BOlStart | BOlEnd | BPara | BParaEnd.

(* lines2: a list (NULL is the empty list), or a dangling pointer *)
Inductive slist2 : Type := L2 (l : list bytes) | LFreed.

(* the variables of blogc_content_parse, 678-726, and the values behind its
   pointer arguments: exc is *end_excerpt, fh *first_header, desc *description,
   hdrs *headers, le is line_ending (which is *endl when endl is not NULL) and
   lef line_ending_found. tmp, tmp2, parsed, slug and tmp_str are NULL or dead
   between iterations. *)
Record bvars : Type := BV {
  b_state : bstate;
  b_start : nat;
  b_start2 : nat;
  b_end : nat;
  b_eend : nat;
  b_real : nat;
  b_level : nat;
  b_prefix : option bytes;
  b_plen : nat;
  b_d : ascii;
  b_lines : list bytes;
  b_lines2 : slist2;
  b_rv : bytes;
  b_le : bytes;
  b_lef : bool;
  b_exc : nat;
  b_fh : option bytes;
  b_desc : option bytes;
  b_hdrs : list header }.
(* assignments to the local variables *)
Definition set_state (x : bstate) (b : bvars) : bvars :=
  BV x (b_start b) (b_start2 b) (b_end b) (b_eend b) (b_real b) (b_level b) (b_prefix b) (b_plen b) (b_d b) (b_lines b) (b_lines2 b) (b_rv b) (b_le b) (b_lef b) (b_exc b) (b_fh b) (b_desc b) (b_hdrs b).
Definition set_start (x : nat) (b : bvars) : bvars :=
  BV (b_state b) x (b_start2 b) (b_end b) (b_eend b) (b_real b) (b_level b) (b_prefix b) (b_plen b) (b_d b) (b_lines b) (b_lines2 b) (b_rv b) (b_le b) (b_lef b) (b_exc b) (b_fh b) (b_desc b) (b_hdrs b).
Definition set_start2 (x : nat) (b : bvars) : bvars :=
  BV (b_state b) (b_start b) x (b_end b) (b_eend b) (b_real b) (b_level b) (b_prefix b) (b_plen b) (b_d b) (b_lines b) (b_lines2 b) (b_rv b) (b_le b) (b_lef b) (b_exc b) (b_fh b) (b_desc b) (b_hdrs b).
Definition set_end (x : nat) (b : bvars) : bvars :=
  BV (b_state b) (b_start b) (b_start2 b) x (b_eend b) (b_real b) (b_level b) (b_prefix b) (b_plen b) (b_d b) (b_lines b) (b_lines2 b) (b_rv b) (b_le b) (b_lef b) (b_exc b) (b_fh b) (b_desc b) (b_hdrs b).
Definition set_eend (x : nat) (b : bvars) : bvars :=
  BV (b_state b) (b_start b) (b_start2 b) (b_end b) x (b_real b) (b_level b) (b_prefix b) (b_plen b) (b_d b) (b_lines b) (b_lines2 b) (b_rv b) (b_le b) (b_lef b) (b_exc b) (b_fh b) (b_desc b) (b_hdrs b).
Definition set_real (x : nat) (b : bvars) : bvars :=
  BV (b_state b) (b_start b) (b_start2 b) (b_end b) (b_eend b) x (b_level b) (b_prefix b) (b_plen b) (b_d b) (b_lines b) (b_lines2 b) (b_rv b) (b_le b) (b_lef b) (b_exc b) (b_fh b) (b_desc b) (b_hdrs b).
Definition set_level (x : nat) (b : bvars) : bvars :=
  BV (b_state b) (b_start b) (b_start2 b) (b_end b) (b_eend b) (b_real b) x (b_prefix b) (b_plen b) (b_d b) (b_lines b) (b_lines2 b) (b_rv b) (b_le b) (b_lef b) (b_exc b) (b_fh b) (b_desc b) (b_hdrs b).
Definition set_prefix (x : option bytes) (b : bvars) : bvars :=
  BV (b_state b) (b_start b) (b_start2 b) (b_end b) (b_eend b) (b_real b) (b_level b) x (b_plen b) (b_d b) (b_lines b) (b_lines2 b) (b_rv b) (b_le b) (b_lef b) (b_exc b) (b_fh b) (b_desc b) (b_hdrs b).
Definition set_plen (x : nat) (b : bvars) : bvars :=
  BV (b_state b) (b_start b) (b_start2 b) (b_end b) (b_eend b) (b_real b) (b_level b) (b_prefix b) x (b_d b) (b_lines b) (b_lines2 b) (b_rv b) (b_le b) (b_lef b) (b_exc b) (b_fh b) (b_desc b) (b_hdrs b).
Definition set_d (x : ascii) (b : bvars) : bvars :=
  BV (b_state b) (b_start b) (b_start2 b) (b_end b) (b_eend b) (b_real b) (b_level b) (b_prefix b) (b_plen b) x (b_lines b) (b_lines2 b) (b_rv b) (b_le b) (b_lef b) (b_exc b) (b_fh b) (b_desc b) (b_hdrs b).
Definition set_lines (x : list bytes) (b : bvars) : bvars :=
  BV (b_state b) (b_start b) (b_start2 b) (b_end b) (b_eend b) (b_real b) (b_level b) (b_prefix b) (b_plen b) (b_d b) x (b_lines2 b) (b_rv b) (b_le b) (b_lef b) (b_exc b) (b_fh b) (b_desc b) (b_hdrs b).
Definition set_lines2 (x : slist2) (b : bvars) : bvars :=
  BV (b_state b) (b_start b) (b_start2 b) (b_end b) (b_eend b) (b_real b) (b_level b) (b_prefix b) (b_plen b) (b_d b) (b_lines b) x (b_rv b) (b_le b) (b_lef b) (b_exc b) (b_fh b) (b_desc b) (b_hdrs b).
Definition set_rv (x : bytes) (b : bvars) : bvars :=
  BV (b_state b) (b_start b) (b_start2 b) (b_end b) (b_eend b) (b_real b) (b_level b) (b_prefix b) (b_plen b) (b_d b) (b_lines b) (b_lines2 b) x (b_le b) (b_lef b) (b_exc b) (b_fh b) (b_desc b) (b_hdrs b).
Definition set_le (x : bytes) (b : bvars) : bvars :=
  BV (b_state b) (b_start b) (b_start2 b) (b_end b) (b_eend b) (b_real b) (b_level b) (b_prefix b) (b_plen b) (b_d b) (b_lines b) (b_lines2 b) (b_rv b) x (b_lef b) (b_exc b) (b_fh b) (b_desc b) (b_hdrs b).
Definition set_lef (x : bool) (b : bvars) : bvars :=
  BV (b_state b) (b_start b) (b_start2 b) (b_end b) (b_eend b) (b_real b) (b_level b) (b_prefix b) (b_plen b) (b_d b) (b_lines b) (b_lines2 b) (b_rv b) (b_le b) x (b_exc b) (b_fh b) (b_desc b) (b_hdrs b).
Definition set_exc (x : nat) (b : bvars) : bvars :=
  BV (b_state b) (b_start b) (b_start2 b) (b_end b) (b_eend b) (b_real b) (b_level b) (b_prefix b) (b_plen b) (b_d b) (b_lines b) (b_lines2 b) (b_rv b) (b_le b) (b_lef b) x (b_fh b) (b_desc b) (b_hdrs b).
Definition set_fh (x : option bytes) (b : bvars) : bvars :=
  BV (b_state b) (b_start b) (b_start2 b) (b_end b) (b_eend b) (b_real b) (b_level b) (b_prefix b) (b_plen b) (b_d b) (b_lines b) (b_lines2 b) (b_rv b) (b_le b) (b_lef b) (b_exc b) x (b_desc b) (b_hdrs b).
Definition set_desc (x : option bytes) (b : bvars) : bvars :=
  BV (b_state b) (b_start b) (b_start2 b) (b_end b) (b_eend b) (b_real b) (b_level b) (b_prefix b) (b_plen b) (b_d b) (b_lines b) (b_lines2 b) (b_rv b) (b_le b) (b_lef b) (b_exc b) (b_fh b) x (b_hdrs b).
Definition set_hdrs (x : list header) (b : bvars) : bvars :=
  BV (b_state b) (b_start b) (b_start2 b) (b_end b) (b_eend b) (b_real b) (b_level b) (b_prefix b) (b_plen b) (b_d b) (b_lines b) (b_lines2 b) (b_rv b) (b_le b) (b_lef b) (b_exc b) (b_fh b) (b_desc b) x.

(* which pointer arguments of blogc_content_parse are not NULL; endl never is
   NULL in the program *)
Record bopts : Type := BO { o_exc : bool; o_fh : bool; o_desc : bool; o_hdrs : bool }.
(* the arguments of the recursive call, 940 *)
Definition quote_opts : bopts := BO false false false false.

(* 680-726; [le] is *endl on entry *)
Definition bv0 (le : option bytes) : bvars :=
  BV BStart 0 0 0 0 0 0 None 0 NUL [] (L2 []) []
     (match le with None => [LF] | Some e => e end)
     (match le with None => false | Some _ => true end) 0 None None [].

(* 748-752 *)
Definition note_le (e : bytes) (b : bvars) : bvars :=
  if b_lef b then b else set_lef true (set_le e b).
(* 732-753: a line ending of two bytes is entered at its second byte *)
Definition newline (s : bytes) (len cur : nat) (c : ascii) (b : bvars) : res (nat * ascii * bvars) :=
  if is_nl c then
    if Nat.ltb (cur + 1) len then
      do c2 <- crd s (cur + 1) ;
      if ((c == LF) && (c2 == CR)) || ((c == CR) && (c2 == LF))
      then Ok (cur + 1, c2, set_real cur (note_le [c; c2] b))
      else Ok (cur, c, note_le [c] b)
    else Ok (cur, c, note_le [c] b)
  else Ok (cur, c, b).

(* "end = is_last && c != '\n' && c != '\r' ? src_len :
    (real_end != 0 ? real_end : current)" *)
Definition line_end (len cur : nat) (c : ascii) (b : bvars) : nat :=
  if Nat.eqb cur (len - 1) && negb (is_nl c) then len
  else if Nat.eqb (b_real b) 0 then cur else b_real b.

(* every line followed by the line ending, 934-936 *)
Definition lines_text (le : bytes) (l : list bytes) : bytes := flat_map (fun x => x ++ le) l.
(* lines separated by the line ending, 1072-1078 and its copies *)
Fixpoint join_lines (le : bytes) (l : list bytes) : bytes :=
  match l with
  | [] => []
  | [x] => x
  | x :: r => x ++ le ++ join_lines le r
  end.

(* 1070-1086, 1118-1135, 1181-1197 and 1229-1246: the item collected in lines2,
   if any, is parsed and becomes an element of lines *)
Definition flush_item (b : bvars) : res bvars :=
  match b_lines2 b with
  | LFreed => UB                                     (* use after free *)
  | L2 [] => Ok b
  | L2 l => do p <- inline (join_lines (b_le b) l) ;
            Ok (set_lines (b_lines b ++ [p]) (set_lines2 (L2 []) b))
  end.
(* lines2 = bc_slist_append (lines2, ...) *)
Definition push2 (x : bytes) (b : bvars) : res bvars :=
  match b_lines2 b with
  | LFreed => UB
  | L2 l => Ok (set_lines2 (L2 (l ++ [x])) b)
  end.
(* 1100-1102 and 1211-1213: lines2 is freed but keeps its value *)
Definition drop_items (b : bvars) : res bvars :=
  match b_lines2 b with
  | LFreed => UB                                     (* double free *)
  | L2 [] => Ok (set_lines [] b)
  | L2 _ => Ok (set_lines [] (set_lines2 LFreed b))
  end.

Definition addrv (x : bytes) (b : bvars) : bvars := set_rv (b_rv b ++ x) b.

(* 1274-1291 *)
Definition para_end (o : bopts) (s : bytes) (cur : nat) (c : ascii) (last : bool) (b : bvars)
  : res (nat * bvars) :=
  if is_nl c || last then
    let t := dup s (b_start b) (b_end b) in
    let b := if o_desc o then match b_desc b with
                              | None => set_desc (Some (fix_description t)) b
                              | Some _ => b end
             else b in
    do p <- inline t ;
    Ok (cur + 1, set_start cur (set_state BStart (addrv (B "<p>" ++ p ++ B "</p>" ++ b_le b) b)))
  else Ok (cur + 1, set_state BPara b).

(* 847-873; slugs are never NULL *)
Definition header_title (o : bopts) (s : bytes) (len cur : nat) (c : ascii) (last : bool) (b : bvars)
  : res (nat * bvars) :=
  if is_nl c || last then
    let b := set_end (line_end len cur c b) b in
    let t := dup s (b_start b) (b_end b) in
    let b := if o_fh o then match b_fh b with
                            | None => set_fh (Some (htmlentities t)) b
                            | Some _ => b end
             else b in
    do p <- inline t ;
    let slug := slugify t in
    let b := if o_hdrs o then set_hdrs (toctree_append (b_hdrs b) (b_level b) (Some slug) (Some p)) b
             else b in
    let h := dec (N.of_nat (b_level b)) in
    Ok (cur + 1,
        set_start cur (set_state BStart
          (addrv (B "<h" ++ h ++ B " id=""" ++ slug ++ B """>" ++ p ++ B "</h" ++ h ++ B ">" ++ b_le b) b)))
  else Ok (cur + 1, b).

(* 884-895 *)
Definition html_end (s : bytes) (cur : nat) (c : ascii) (last : bool) (b : bvars) : res (nat * bvars) :=
  if is_nl c || last then
    Ok (cur + 1, set_start cur (set_state BStart
                   (addrv (dup s (b_start b) (b_end b) ++ b_le b) b)))
  else Ok (cur + 1, set_state BHtml b).

(* 931-958; [rec] is the recursive call on the text and *endl *)
Definition quote_end (rec : bytes -> bytes -> res bytes) (cur : nat) (c : ascii) (last : bool) (b : bvars)
  : res (nat * bvars) :=
  if is_nl c || last then
    do t <- rec (lines_text (b_le b) (b_lines b)) (b_le b) ;
    Ok (cur + 1, set_start2 cur (set_state BStart (set_prefix None (set_lines []
                   (addrv (B "<blockquote>" ++ t ++ B "</blockquote>" ++ b_le b) b)))))
  else Ok (cur + 1, set_start2 cur (set_state BQuoteStart b)).

(* 994-1018 *)
Definition code_end (cur : nat) (c : ascii) (last : bool) (b : bvars) : res (nat * bvars) :=
  if is_nl c || last then
    Ok (cur + 1, set_start2 cur (set_state BStart (set_prefix None (set_lines []
                   (addrv (B "<pre><code>" ++ join_lines (b_le b) (map htmlentities (b_lines b))
                             ++ B "</code></pre>" ++ b_le b) b)))))
  else Ok (cur + 1, set_start2 cur (set_state BCodeStart b)).

(* 1116-1152 and 1227-1263: [tag] is ul or ol, [again] the state to go back to *)
Definition list_end (tag : bytes) (again : bstate) (cur : nat) (c : ascii) (last : bool) (b : bvars)
  : res (nat * bvars) :=
  if is_nl c || last then
    do b <- flush_item b ;
    let le := b_le b in
    Ok (cur + 1, set_start2 cur (set_state BStart (set_prefix None (set_lines []
                   (addrv (B "<" ++ tag ++ B ">" ++ le
                             ++ flat_map (fun x => B "<li>" ++ x ++ B "</li>" ++ le) (b_lines b)
                             ++ B "</" ++ tag ++ B ">" ++ le) b)))))
  else Ok (cur + 1, set_start2 cur (set_state again b)).

(* 1063-1114 and 1174-1225: [item] tells whether a line starts an item,
   [plen] is the length of the item prefix. The "%-*s" of 1068 and 1179 makes a
   string of plen spaces (the size_t is passed for an int). *)
Definition list_start (item : bytes -> bool) (plen : nat) (tag : bytes) (again endst : bstate)
  (s : bytes) (len cur : nat) (c : ascii) (last : bool) (b : bvars) : res (nat * bvars) :=
  if is_nl c || last then
    let b := set_end (line_end len cur c b) b in
    let t := dup s (b_start2 b) (b_end b) in
    if item t then
      do b <- flush_item b ;
      do b <- push2 (skipn plen t) b ;
      let b := set_state endst b in
      if last then list_end tag again cur c last b else Ok (cur + 1, b)
    else if starts_with t (spaces plen) then
      do b <- push2 (skipn plen t) b ;
      let b := set_state endst b in
      if last then list_end tag again cur c last b else Ok (cur + 1, b)
    else
      do b <- drop_items b ;
      let b := set_prefix None (set_state BParaEnd b) in
      if last then Ok (cur, b) else Ok (cur + 1, b)
  else Ok (cur + 1, b).

(* the switch of blogc_content_parse, 755-1295, after the handling of line
   endings; the result is current for the next iteration *)
Definition bstep (rec : bytes -> bytes -> res bytes) (o : bopts) (s : bytes) (len cur : nat)
  (c : ascii) (b : bvars) : res (nat * bvars) :=
  let last := Nat.eqb cur (len - 1) in
  let eol := is_nl c || last in
  match b_state b with
  | BStart =>                                                        (* 757-799 *)
      if eol then Ok (cur + 1, b)
      else
        let b := set_start cur b in
        Ok (cur + 1,
            if (c == "."%char) && o_exc o then set_eend (length (b_rv b)) (set_state BExcerpt b)
            else if c == "#"%char then set_level 1 (set_state BHeader b)
            else if (c == "*"%char) || (c == "+"%char) || (c == "-"%char) then
              set_start2 cur (set_d c (set_state BListOrRule b))
            else if is_digit c then set_start2 cur (set_state BOl b)
            else if is_sp c then set_start2 cur (set_state BCode b)
            else if c == "<"%char then set_state BHtml b
            else if c == ">"%char then set_start2 cur (set_state BQuote b)
            else set_state BPara b)
  | BExcerpt =>                                                      (* 801-812 *)
      Ok (cur + 1,
          if o_exc o && (c == "."%char) then b
          else if o_exc o && is_nl c then set_state BExcerptEnd b
          else set_eend 0 (set_state BPara b))
  | BExcerptEnd =>                                                   (* 814-824 *)
      Ok (cur + 1,
          if o_exc o && is_nl c then set_exc (b_eend b) (set_state BStart b)
          else set_eend 0 (set_state BParaEnd b))
  | BHeader =>                                                       (* 826-836 *)
      Ok (cur + 1,
          if c == "#"%char then set_level (b_level b + 1) b
          else if is_sp c then set_state BHeaderTitleStart b
          else set_state BPara b)
  | BHeaderTitleStart =>                                             (* 838-845 *)
      if is_sp c then Ok (cur + 1, b)
      else
        let b := set_start cur b in
        if negb (is_nl c) then Ok (cur + 1, set_state BHeaderTitle b)
        else header_title o s len cur c last b
  | BHeaderTitle => header_title o s len cur c last b
  | BHtml =>                                                         (* 875-882 *)
      let b := if eol then set_state BHtmlEnd (set_end (line_end len cur c b) b) else b in
      if last then html_end s cur c last b else Ok (cur + 1, b)
  | BHtmlEnd => html_end s cur c last b
  | BQuote =>                                                        (* 897-902 *)
      if is_sp c then Ok (cur + 1, b)
      else Ok (cur + 1, set_prefix (Some (dup s (b_start b) cur)) (set_state BQuoteStart b))
  | BQuoteStart =>                                                   (* 904-929 *)
      if eol then
        match b_prefix b with
        | None => UB
        | Some pre =>
            let b := set_end (line_end len cur c b) b in
            let t := dup s (b_start2 b) (b_end b) in
            if starts_with t pre then
              let b := set_state BQuoteEnd (set_lines (b_lines b ++ [skipn (length pre) t]) b) in
              if last then quote_end rec cur c last b else Ok (cur + 1, b)
            else
              let b := set_state BPara (set_prefix None (set_lines [] b)) in
              Ok (if last then cur else cur + 1, b)
        end
      else Ok (cur + 1, b)
  | BQuoteEnd => quote_end rec cur c last b
  | BCode =>                                                         (* 960-965 *)
      if is_sp c then Ok (cur + 1, b)
      else Ok (cur + 1, set_prefix (Some (dup s (b_start b) cur)) (set_state BCodeStart b))
  | BCodeStart =>                                                    (* 967-992 *)
      if eol then
        match b_prefix b with
        | None => UB
        | Some pre =>
            let b := set_end (line_end len cur c b) b in
            let t := dup s (b_start2 b) (b_end b) in
            if starts_with t pre then
              let b := set_state BCodeEnd (set_lines (b_lines b ++ [skipn (length pre) t]) b) in
              if last then code_end cur c last b else Ok (cur + 1, b)
            else
              let b := set_state BPara (set_prefix None (set_lines [] b)) in
              Ok (if last then cur else cur + 1, b)
        end
      else Ok (cur + 1, b)
  | BCodeEnd => code_end cur c last b
  | BListOrRule =>                                                   (* 1020-1035 *)
      if Nat.eqb cur (b_start b + 1) && (c == b_d b) then Ok (cur + 1, set_state BRuleOrEmph b)
      else if Nat.eqb cur (b_start b + 1) && negb (is_sp c) && (b_d b == "*"%char)
           then Ok (cur + 1, set_state BPara b)
      else if is_sp c then Ok (cur + 1, b)
      else Ok (cur + 1, set_prefix (Some (dup s (b_start b) cur)) (set_state BUlStart b))
  | BRuleOrEmph =>                                                   (* 1037-1047 *)
      if c == b_d b then Ok (if last then cur else cur + 1, set_state BRule b)
      else Ok (cur + 1, set_state BPara b)
  | BRule =>                                                         (* 1049-1061 *)
      if (c == b_d b) && negb last then Ok (cur + 1, b)
      else if eol then
        Ok (cur + 1, set_d NUL (set_start cur (set_state BStart (addrv (B "<hr />" ++ b_le b) b))))
      else Ok (cur + 1, set_state BPara b)
  | BUlStart =>                                                      (* 1063-1114 *)
      match b_prefix b with
      | None => if eol then UB else Ok (cur + 1, b)
      | Some pre => list_start (fun t => starts_with t pre) (length pre) (B "ul") BUlStart BUlEnd
                               s len cur c last b
      end
  | BUlEnd => list_end (B "ul") BUlStart cur c last b
  | BOl =>                                                           (* 1154-1164 *)
      if is_digit c then Ok (cur + 1, b)
      else if c == "."%char then Ok (cur + 1, set_state BOlSpace b)
      else Ok (if last then cur else cur + 1, set_state BPara b)
  | BOlSpace =>                                                      (* 1166-1172 *)
      if is_sp c then Ok (cur + 1, b)
      else
        let b := set_plen (cur - b_start b) (set_state BOlStart b) in
        if negb eol then Ok (cur + 1, b)
        else list_start (fun t => is_ordered_item t (b_plen b)) (b_plen b) (B "ol") BOlStart BOlEnd
                        s len cur c last b
  | BOlStart => list_start (fun t => is_ordered_item t (b_plen b)) (b_plen b) (B "ol") BOlStart BOlEnd
                           s len cur c last b
  | BOlEnd => list_end (B "ol") BOlStart cur c last b
  | BPara =>                                                         (* 1265-1272 *)
      let b := if eol then set_state BParaEnd (set_end (line_end len cur c b) b) else b in
      if last then para_end o s cur c last b else Ok (cur + 1, b)
  | BParaEnd => para_end o s cur c last b
  end.

(* the loop of blogc_content_parse, 728-1296 *)
Fixpoint bloop (fuel : nat) (rec : bytes -> bytes -> res bytes) (o : bopts) (s : bytes)
  (len cur : nat) (b : bvars) : res bvars :=
  if Nat.leb len cur then Ok b
  else
  match fuel with
  | 0 => OutOfFuel
  | S f =>
      do c <- crd s cur ;
      do (cur', c', b') <- newline s len cur c b ;
      do x <- bstep rec o s len cur' c' b' ;
      bloop f rec o s len (fst x) (snd x)
  end.

(* blogc_content_parse, 673-1303: [le] is *endl on entry. The result holds rv
   and the values stored through the pointers. Each nesting of blockquotes takes
   one unit of fuel; one loop makes at most two iterations per byte. *)
Fixpoint content_parse (fuel : nat) (o : bopts) (s : bytes) (le : option bytes) : res bvars :=
  match fuel with
  | 0 => OutOfFuel
  | S f =>
      bloop (2 * length s) (fun t e => do b <- content_parse f quote_opts t (Some e) ; Ok (b_rv b))
            o s (length s) 0 (bv0 le)
  end.
