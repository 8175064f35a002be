(* blogc/debug.c *)
From Verif Require Import Base Template.

(* the bits of an operator, template-parser.h 31-36: NEQ, EQ, LT, GT *)
Definition op_bits (op : top) : bool * bool * bool * bool :=
  match op with
  | ONone => (false, false, false, false)
  | ONeq => (true, false, false, false)
  | OEq => (false, true, false, false)
  | OLt => (false, false, true, false)
  | OGt => (false, false, false, true)
  | OLe => (false, true, true, false)
  | OGe => (false, true, false, true)
  end.
(* get_operator, 11-28 *)
Definition get_operator (op : top) : bytes :=
  let '(neq, eq, lt, gt) := op_bits op in
  if neq : bool then B "!="
  else if eq : bool then (if lt : bool then B "<=" else if gt : bool then B ">=" else B "==")
  else if lt : bool then B "<" else if gt : bool then B ">" else [].

(* the string of a %s: printing NULL is undefined *)
Definition printed (d : option bytes) : res bytes := match d with Some v => Ok v | None => UB end.

(* one round of the loop of blogc_debug_template, 34-73: what is written to stderr *)
Definition debug_node (n : tnode) : res bytes :=
  do t <- match n_type n with
          | TIfdef => do v <- printed (n_d0 n) ; Ok (B "IFDEF: " ++ v)
          | TIfndef => do v <- printed (n_d0 n) ; Ok (B "IFNDEF: " ++ v)
          | TIf => do v <- printed (n_d0 n) ; do w <- printed (n_d1 n) ;
                   Ok (B "IF: " ++ v ++ B " " ++ get_operator (n_op n) ++ B " " ++ w)
          | TElse => Ok (B "ELSE")
          | TEndif => Ok (B "ENDIF")
          | TForeach => do v <- printed (n_d0 n) ; Ok (B "FOREACH: " ++ v)
          | TEndforeach => Ok (B "ENDFOREACH")
          | TBlock => do v <- printed (n_d0 n) ; Ok (B "BLOCK: " ++ v)
          | TEndblock => Ok (B "ENDBLOCK")
          | TVariable => do v <- printed (n_d0 n) ; Ok (B "VARIABLE: " ++ v)
          | TContent => do v <- printed (n_d0 n) ; Ok (B "CONTENT: `" ++ v ++ B "`")
          end ;
  Ok (B "DEBUG: <TEMPLATE " ++ t ++ B ">" ++ [LF]).

(* blogc_debug_template, 31-75 *)
Fixpoint debug_template (ast : list tnode) : res bytes :=
  match ast with
  | [] => Ok []
  | n :: r => do x <- debug_node n ; do y <- debug_template r ; Ok (x ++ y)
  end.
