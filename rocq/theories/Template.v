(* Model of src/blogc/template-parser.c. *)
From Verif Require Import Base Utils.

(* blogc_template_node_type_t, template-parser.h 17-29 *)
Inductive ntype : Type :=
| TIfdef | TIfndef | TIf | TElse | TEndif | TForeach | TEndforeach
| TBlock | TEndblock | TVariable | TContent.

Definition ntype_eqb (a b : ntype) : bool :=
  match a, b with
  | TIfdef, TIfdef | TIfndef, TIfndef | TIf, TIf | TElse, TElse | TEndif, TEndif
  | TForeach, TForeach | TEndforeach, TEndforeach | TBlock, TBlock
  | TEndblock, TEndblock | TVariable, TVariable | TContent, TContent => true
  | _, _ => false
  end.

(* blogc_template_operator_t, template-parser.h 31-36: the combinations the
   parser stores; ONone is 0 *)
Inductive top : Type := ONone | ONeq | OEq | OLt | OGt | OLe | OGe.

(* blogc_template_node_t, template-parser.h 38-46; childs is never used; None is
   a NULL pointer *)
Record tnode : Type := Node { n_type : ntype; n_op : top; n_d0 : option bytes; n_d1 : option bytes }.

(* blogc_template_parser_state_t, 13-36 *)
Inductive tstate : Type :=
| SStart | SOpen | SBlockStart | SBlockStartClean | SBlockType | SBBTypeStart | SBBType
| SIfStart | SIfVar | SIfOpStart | SIfOp | SIfOperandStart | SIfString | SIfVarOperand
| SForStart | SForVar | SEndClean | SEnd | SVarStart | SVar | SVarEnd | SClose.

(* what the error messages say, without position *)
Inductive tmsg : Type :=
| MDupCleanBefore | MStmtLower | MNested | MIfsInBlock (n : nat) (b : option bytes)
| MForeachInBlock (b : option bytes) | MEndblock | MTwoElse | MElse | MEndif | MForNested
| MEndforeach | MStmtType | MBlockLower | MBlockType | MVarUpper | MVarChar | MOperand
| MForUpper | MForChar | MDupCleanAfter | MEndPct | MEndVar | MOperator | MEndBrace
| MString | MIfs (n : nat) | MBlockOpen | MForeachOpen.

(* bc_error_t: message and the offset handed to bc_error_parser, if any *)
Record terror : Type := TErr { te_msg : tmsg; te_at : option nat }.

(* Local variables, 45-81. [previous] always points to the node appended last,
   so it is the last element of [ast]. *)
Record tst : Type := Tst
  { t_state : tstate; t_start : nat; t_end : nat; t_op_start : nat; t_op_end : nat;
    t_start2 : nat; t_end2 : nat; t_ifs : nat; t_block_ifs : nat; t_else : bool;
    t_foreach : bool; t_block_foreach : bool; t_ast : list tnode; t_lstrip : bool;
    t_block_type : option bytes; t_type : ntype; t_block : bool }.

Definition init_tst : tst :=
  Tst SStart 0 0 0 0 0 0 0 0 false false false [] false None TContent false.

Definition t_set_state (s : tst) (q : tstate) : tst :=
  Tst q (t_start s) (t_end s) (t_op_start s) (t_op_end s) (t_start2 s) (t_end2 s) (t_ifs s)
      (t_block_ifs s) (t_else s) (t_foreach s) (t_block_foreach s) (t_ast s) (t_lstrip s)
      (t_block_type s) (t_type s) (t_block s).
Definition t_set_start (s : tst) (n : nat) : tst :=
  Tst (t_state s) n (t_end s) (t_op_start s) (t_op_end s) (t_start2 s) (t_end2 s) (t_ifs s)
      (t_block_ifs s) (t_else s) (t_foreach s) (t_block_foreach s) (t_ast s) (t_lstrip s)
      (t_block_type s) (t_type s) (t_block s).
Definition t_set_end (s : tst) (n : nat) : tst :=
  Tst (t_state s) (t_start s) n (t_op_start s) (t_op_end s) (t_start2 s) (t_end2 s) (t_ifs s)
      (t_block_ifs s) (t_else s) (t_foreach s) (t_block_foreach s) (t_ast s) (t_lstrip s)
      (t_block_type s) (t_type s) (t_block s).
Definition t_set_op (s : tst) (a b : nat) : tst :=
  Tst (t_state s) (t_start s) (t_end s) a b (t_start2 s) (t_end2 s) (t_ifs s)
      (t_block_ifs s) (t_else s) (t_foreach s) (t_block_foreach s) (t_ast s) (t_lstrip s)
      (t_block_type s) (t_type s) (t_block s).
Definition t_set_2 (s : tst) (a b : nat) : tst :=
  Tst (t_state s) (t_start s) (t_end s) (t_op_start s) (t_op_end s) a b (t_ifs s)
      (t_block_ifs s) (t_else s) (t_foreach s) (t_block_foreach s) (t_ast s) (t_lstrip s)
      (t_block_type s) (t_type s) (t_block s).
Definition t_set_ifs (s : tst) (n : nat) (e : bool) : tst :=
  Tst (t_state s) (t_start s) (t_end s) (t_op_start s) (t_op_end s) (t_start2 s) (t_end2 s) n
      (t_block_ifs s) e (t_foreach s) (t_block_foreach s) (t_ast s) (t_lstrip s)
      (t_block_type s) (t_type s) (t_block s).
Definition t_set_in_block (s : tst) (n : nat) (f : bool) : tst :=
  Tst (t_state s) (t_start s) (t_end s) (t_op_start s) (t_op_end s) (t_start2 s) (t_end2 s) (t_ifs s)
      n (t_else s) (t_foreach s) f (t_ast s) (t_lstrip s) (t_block_type s) (t_type s) (t_block s).
Definition t_set_foreach (s : tst) (f : bool) : tst :=
  Tst (t_state s) (t_start s) (t_end s) (t_op_start s) (t_op_end s) (t_start2 s) (t_end2 s) (t_ifs s)
      (t_block_ifs s) (t_else s) f (t_block_foreach s) (t_ast s) (t_lstrip s)
      (t_block_type s) (t_type s) (t_block s).
Definition t_set_ast (s : tst) (l : list tnode) : tst :=
  Tst (t_state s) (t_start s) (t_end s) (t_op_start s) (t_op_end s) (t_start2 s) (t_end2 s) (t_ifs s)
      (t_block_ifs s) (t_else s) (t_foreach s) (t_block_foreach s) l (t_lstrip s)
      (t_block_type s) (t_type s) (t_block s).
Definition t_set_lstrip (s : tst) (b : bool) : tst :=
  Tst (t_state s) (t_start s) (t_end s) (t_op_start s) (t_op_end s) (t_start2 s) (t_end2 s) (t_ifs s)
      (t_block_ifs s) (t_else s) (t_foreach s) (t_block_foreach s) (t_ast s) b
      (t_block_type s) (t_type s) (t_block s).
Definition t_set_block_type (s : tst) (b : option bytes) : tst :=
  Tst (t_state s) (t_start s) (t_end s) (t_op_start s) (t_op_end s) (t_start2 s) (t_end2 s) (t_ifs s)
      (t_block_ifs s) (t_else s) (t_foreach s) (t_block_foreach s) (t_ast s) (t_lstrip s)
      b (t_type s) (t_block s).
Definition t_set_type (s : tst) (k : ntype) : tst :=
  Tst (t_state s) (t_start s) (t_end s) (t_op_start s) (t_op_end s) (t_start2 s) (t_end2 s) (t_ifs s)
      (t_block_ifs s) (t_else s) (t_foreach s) (t_block_foreach s) (t_ast s) (t_lstrip s)
      (t_block_type s) k (t_block s).
Definition t_set_block (s : tst) (b : bool) : tst :=
  Tst (t_state s) (t_start s) (t_end s) (t_op_start s) (t_op_end s) (t_start2 s) (t_end2 s) (t_ifs s)
      (t_block_ifs s) (t_else s) (t_foreach s) (t_block_foreach s) (t_ast s) (t_lstrip s)
      (t_block_type s) (t_type s) b.

(* bc_strndup(src + lo, hi - lo): undefined when the range is not inside src
   (the size_t subtraction would wrap around or the read leave the buffer) *)
Definition t_dup (src : bytes) (lo hi : nat) : res bytes :=
  if Nat.leb lo hi && Nat.leb hi (length src) then Ok (cstr (sub src lo hi)) else UB.

(* appending the content node of START (91-109) and OPEN_BRACKET (122-139) *)
Definition push_content (s : tst) (src : bytes) (lo hi : nat) : res tst :=
  do t <- t_dup src lo hi ;
  let n := Node (t_type s) ONone (Some (if t_lstrip s then lstrip t else t)) None in
  Ok (t_set_lstrip (t_set_ast s (t_ast s ++ [n])) false).

(* previous->data[0] = bc_str_rstrip(previous->data[0]), 148-152 *)
Fixpoint rstrip_last (l : list tnode) : list tnode :=
  match l with
  | [] => []
  | [n] => match n_type n with
           | TContent => [Node (n_type n) (n_op n) (option_map rstrip (n_d0 n)) (n_d1 n)]
           | _ => [n]
           end
  | n :: r => n :: rstrip_last r
  end.

(* current - start == n && 0 == strncmp(w, src + start, n) *)
Definition word_is (src : bytes) (start current : nat) (w : bytes) : bool :=
  Nat.eqb (current - start) (length w) && beq (sub src start (start + length w)) w.

(* open conditionals inside the current block, 257-258 and 281-282 *)
Definition open_if (s : tst) : bool :=
  (t_block s && Nat.ltb (t_block_ifs s) (t_ifs s)) || (negb (t_block s) && Nat.ltb 0 (t_ifs s)).

(* var name characters *)
Definition var_char (c : ascii) : bool := is_upper c || is_digit c || (c == "_"%char).

Definition tfail (m : tmsg) (at_ : nat) : res (tst + terror) := Ok (inr (TErr m (Some at_))).
Definition tgo (s : tst) : res (tst + terror) := Ok (inl s).

(* BLOCK_START, 158-176 (also reached by falling through) *)
Definition step_block_start (s : tst) (current : nat) (c : ascii) : res (tst + terror) :=
  if isspace c then tgo s
  else if is_lower c then tgo (t_set_start (t_set_state s SBlockType) current)
  else if c == "-"%char then tfail MDupCleanBefore current
  else tfail MStmtLower current.

(* BLOCK_END, 519-534 (also reached by falling through) *)
Definition step_block_end (s : tst) (current : nat) (c : ascii) : res (tst + terror) :=
  if c == "%"%char then tgo (t_set_state s SClose)
  else if c == "-"%char then tfail MDupCleanAfter current
  else tfail MEndPct current.

(* BLOCK_TYPE, 178-334 *)
Definition step_block_type (s : tst) (src : bytes) (current : nat) (c : ascii) : res (tst + terror) :=
  let is w := word_is src (t_start s) current (B w) in
  if is_lower c then tgo s
  else if isspace c then
    if is "block"%string then                                                   (* 182-196 *)
      if negb (t_block s) then
        tgo (t_set_in_block (t_set_start (t_set_type (t_set_state s SBBTypeStart) TBlock) current)
               (t_ifs s) (t_foreach s))
      else tfail MNested current
    else if is "endblock"%string then                                           (* 197-223 *)
      if t_block s then
        if negb (Nat.eqb (t_ifs s) (t_block_ifs s))
        then Ok (inr (TErr (MIfsInBlock (t_ifs s - t_block_ifs s) (t_block_type s)) None))
        else if negb (t_block_foreach s) && t_foreach s
        then Ok (inr (TErr (MForeachInBlock (t_block_type s)) None))
        else tgo (t_set_block (t_set_type (t_set_state s SEndClean) TEndblock) false)
      else tfail MEndblock current
    else if is "ifdef"%string then                                              (* 224-233 *)
      tgo (t_set_ifs (t_set_start (t_set_type (t_set_state s SIfStart) TIfdef) current) (t_ifs s + 1) false)
    else if is "ifndef"%string then                                             (* 234-243 *)
      tgo (t_set_ifs (t_set_start (t_set_type (t_set_state s SIfStart) TIfndef) current) (t_ifs s + 1) false)
    else if is "if"%string then                                                 (* 244-253 *)
      tgo (t_set_ifs (t_set_start (t_set_type (t_set_state s SIfStart) TIf) current) (t_ifs s + 1) false)
    else if is "else"%string then                                               (* 254-277 *)
      if open_if s then
        if negb (t_else s) then
          tgo (t_set_ifs (t_set_type (t_set_state s SEndClean) TElse) (t_ifs s) true)
        else tfail MTwoElse current
      else tfail MElse current
    else if is "endif"%string then                                              (* 278-295 *)
      if open_if s then
        tgo (t_set_ifs (t_set_type (t_set_state s SEndClean) TEndif) (t_ifs s - 1) false)
      else tfail MEndif current
    else if is "foreach"%string then                                            (* 296-310 *)
      if negb (t_foreach s) then
        tgo (t_set_foreach (t_set_start (t_set_type (t_set_state s SForStart) TForeach) current) true)
      else tfail MForNested current
    else if is "endforeach"%string then                                         (* 311-328 *)
      if (t_block s && negb (t_block_foreach s) && t_foreach s) || (negb (t_block s) && t_foreach s)
      then tgo (t_set_foreach (t_set_type (t_set_state s SEndClean) TEndforeach) false)
      else tfail MEndforeach current
    else tfail MStmtType current
  else tfail MStmtType current.

(* the operator table of CLOSE_BRACKET, 583-600; None is tmp_op == 0 *)
Definition op_of (w : bytes) : option top :=
  if Nat.eqb (length w) 1 then
    if beq w (B "<") then Some OLt else if beq w (B ">") then Some OGt else None
  else if Nat.eqb (length w) 2 then
    if beq w (B "<=") then Some OLe else if beq w (B ">=") then Some OGe
    else if beq w (B "==") then Some OEq else if beq w (B "!=") then Some ONeq else None
  else None.

(* CLOSE_BRACKET, appending the node, 612-633 *)
Definition close_node (src : bytes) (current : nat) (op : top) (s : tst) : res (tst + terror) :=
  do d0 <- (if Nat.ltb (t_start s) (t_end s)
            then do t <- t_dup src (t_start s) (t_end s) ; Ok (Some t) else Ok None) ;
  do ds <- (if Nat.ltb (t_start2 s) (t_end2 s)
            then do t <- t_dup src (t_start2 s) (t_end2 s) ; Ok (Some t, (0, 0))
            else Ok (None, (t_start2 s, t_end2 s))) ;
  let n := Node (t_type s) op d0 (fst ds) in
  let s1 := t_set_2 s (fst (snd ds)) (snd (snd ds)) in
  let s2 := match t_type s1 with TBlock => t_set_block_type s1 d0 | _ => s1 end in
  tgo (t_set_start (t_set_type (t_set_state (t_set_ast s2 (t_ast s2 ++ [n])) SStart) TContent)
         (current + 1)).

(* CLOSE_BRACKET after c was found to be a closing brace, 582-634 *)
Definition step_close (s : tst) (src : bytes) (current : nat) : res (tst + terror) :=
  if Nat.ltb (t_op_start s) (t_op_end s) then
    if Nat.leb (t_op_end s) (length src) then
      match op_of (sub src (t_op_start s) (t_op_end s)) with
      | None => tfail MOperator (t_op_start s)
      | Some op => close_node src current op (t_set_op s 0 0)
      end
    else UB
  else close_node src current ONone s.

(* the body of the while loop after the read of c, 85-638 *)
Definition t_step (src : bytes) (current : nat) (s : tst) (c : ascii) (is_last : bool)
  : res (tst + terror) :=
  match t_state s with
  | SStart =>                                                                   (* 90-114 *)
      do s1 <- (if is_last then push_content s src (t_start s) (length src) else Ok s) ;
      if c == "{"%char then tgo (t_set_state (t_set_end s1 current) SOpen) else tgo s1
  | SOpen =>                                                                    (* 116-144 *)
      if (c == "%"%char) || (c == "{"%char) then
        let s1 := t_set_state s (if c == "%"%char then SBlockStartClean else SVarStart) in
        if Nat.ltb (t_start s1) (t_end s1)
        then do s2 <- push_content s1 src (t_start s1) (t_end s1) ; tgo s2
        else tgo s1
      else tgo (t_set_state s SStart)
  | SBlockStartClean =>                                                         (* 146-156 *)
      if c == "-"%char
      then tgo (t_set_state (t_set_ast s (rstrip_last (t_ast s))) SBlockStart)
      else step_block_start (t_set_state s SBlockStart) current c
  | SBlockStart => step_block_start s current c
  | SBlockType => step_block_type s src current c
  | SBBTypeStart =>                                                             (* 336-347 *)
      if isspace c then tgo s
      else if is_lower c then tgo (t_set_start (t_set_state s SBBType) current)
      else tfail MBlockLower current
  | SBBType =>                                                                  (* 349-398 *)
      if is_lower c || (c == "_"%char) then tgo s
      else if isspace c then
        let is w := word_is src (t_start s) current (B w) in
        if is "entry"%string || is "listing"%string || is "listing_once"%string
           || is "listing_empty"%string || is "listing_entry"%string
        then tgo (t_set_state (t_set_end (t_set_block s true) current) SEndClean)
        else tfail MBlockType current
      else tfail MBlockType current
  | SIfStart =>                                                                 (* 400-411 *)
      if isspace c then tgo s
      else if is_upper c then tgo (t_set_start (t_set_state s SIfVar) current)
      else tfail MVarUpper current
  | SIfVar =>                                                                   (* 413-428 *)
      if var_char c then tgo s
      else if isspace c then
        tgo (t_set_state (t_set_end s current)
               (match t_type s with TIf => SIfOpStart | _ => SEndClean end))
      else tfail MVarChar current
  | SIfOpStart =>                                                               (* 430-435 *)
      if isspace c then tgo s
      else tgo (t_set_op (t_set_state s SIfOp) current (t_op_end s))
  | SIfOp =>                                                                    (* 437-442 *)
      if negb (isspace c) then tgo s
      else tgo (t_set_op (t_set_state s SIfOperandStart) (t_op_start s) current)
  | SIfOperandStart =>                                                          (* 444-463 *)
      if isspace c then tgo s
      else if is_upper c then tgo (t_set_2 (t_set_state s SIfVarOperand) current (t_end2 s))
      else if c == DQ then tgo (t_set_2 (t_set_state s SIfString) current (t_end2 s))
      else tfail MOperand current
  | SIfString =>                                                                (* 465-472 *)
      if negb (c == DQ) then tgo s
      else
        do b <- (match current with 0 => UB | S i => rd src i end) ;
        if b == BSL then tgo s
        else tgo (t_set_2 (t_set_state s SEndClean) (t_start2 s) (current + 1))
  | SIfVarOperand =>                                                            (* 474-479 *)
      if var_char c then tgo s
      else tgo (t_set_2 (t_set_state s SEndClean) (t_start2 s) current)
  | SForStart =>                                                                (* 481-493 *)
      if isspace c then tgo s
      else if is_upper c then tgo (t_set_start (t_set_state s SForVar) current)
      else tfail MForUpper current
  | SForVar =>                                                                  (* 495-507 *)
      if var_char c then tgo s
      else if isspace c then tgo (t_set_state (t_set_end s current) SEndClean)
      else tfail MForChar current
  | SEndClean =>                                                                (* 509-517 *)
      if isspace c then tgo s
      else if c == "-"%char then tgo (t_set_state (t_set_lstrip s true) SEnd)
      else step_block_end (t_set_state s SEnd) current c
  | SEnd => step_block_end s current c
  | SVarStart =>                                                                (* 536-548 *)
      if isspace c then tgo s
      else if is_upper c
      then tgo (t_set_start (t_set_type (t_set_state s SVar) TVariable) current)
      else tfail MVarUpper current
  | SVar =>                                                                     (* 550-567 *)
      if var_char c then tgo s
      else if isspace c then tgo (t_set_state (t_set_end s current) SVarEnd)
      else if c == "}"%char then tgo (t_set_state (t_set_end s current) SClose)
      else tfail MVarChar current
  | SVarEnd =>                                                                  (* 569-579 *)
      if isspace c then tgo s
      else if c == "}"%char then tgo (t_set_state s SClose)
      else tfail MEndVar current
  | SClose =>                                                                   (* 581-636 *)
      if c == "}"%char then step_close s src current else tfail MEndBrace current
  end.

(* after the loop, 646-660 *)
Definition t_finish (s : tst) : list tnode + terror :=
  match t_state s with
  | SIfString => inr (TErr MString (Some (t_start2 s)))
  | _ =>
      if negb (Nat.eqb (t_ifs s) 0) then inr (TErr (MIfs (t_ifs s)) None)
      else if t_block s then inr (TErr MBlockOpen None)
      else if t_foreach s then inr (TErr MForeachOpen None)
      else inl (t_ast s)
  end.

(* while (current < src_len), 84-644 *)
Fixpoint t_loop (fuel : nat) (src : bytes) (current : nat) (s : tst) : res (list tnode + terror) :=
  match fuel with
  | 0 => OutOfFuel
  | S fuel =>
      if Nat.ltb current (length src) then
        do c <- rd src current ;
        do r <- t_step src current s c (Nat.eqb current (length src - 1)) ;
        match r with
        | inl s' => t_loop fuel src (current + 1) s'
        | inr e => Ok (inr e)
        end
      else Ok (t_finish s)
  end.

(* blogc_template_parse, 39-672 *)
Definition template_parse (src : bytes) : res (list tnode + terror) :=
  t_loop (S (length src)) src 0 init_tst.
