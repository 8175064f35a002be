(* What a template is: texts, variables and statements, written down with any
   blanks and whitespace cleaners; and when its statements fit together. Written
   from the documentation (man/blogc-template.7.ronn) and the grammar it gives, not
   from the parser's automaton. *)
From Verif Require Import Base Utils Template.

(* ---- concrete syntax ---- *)

Definition blanks (w : bytes) : Prop := forallb isspace w = true.
Definition blanks1 (w : bytes) : Prop := blanks w /\ w <> [].

(* [A-Z][A-Z0-9_]* *)
Definition name_ok (v : bytes) : Prop :=
  match v with c :: r => is_upper c = true /\ forallb var_char r = true | [] => False end.

Definition block_names : list bytes :=
  [B "entry"; B "listing"; B "listing_once"; B "listing_empty"; B "listing_entry"].

(* the inside of a quoted operand: a quote only directly after a backslash; the
   closing quote is the first one that is not. [prev] is the byte before. *)
Fixpoint quoted_from (prev : ascii) (b : bytes) : bool :=
  match b with
  | [] => negb (prev == BSL)
  | c :: r => (if c == DQ then prev == BSL else true) && quoted_from c r
  end.
Definition quoted (b : bytes) : Prop := quoted_from DQ b = true.

Definition keyword (ty : ntype) : bytes :=
  match ty with
  | TIfdef => B "ifdef" | TIfndef => B "ifndef" | TIf => B "if" | TElse => B "else"
  | TEndif => B "endif" | TForeach => B "foreach" | TEndforeach => B "endforeach"
  | TBlock => B "block" | TEndblock => B "endblock" | TVariable => [] | TContent => []
  end.

(* what stands between the cleaners of a statement: its type, name, operator and
   operand. A variable operand is followed by one arbitrary byte that is not
   part of a name (usually a blank). *)
Inductive body : ntype -> option bytes -> bytes -> option bytes -> bytes -> Prop :=
| BClose ty w0 s : In ty [TElse; TEndif; TEndforeach; TEndblock] -> blanks w0 -> blanks1 s ->
    body ty None [] None (w0 ++ keyword ty ++ s)
| BNamed ty w0 s1 v s2 : In ty [TIfdef; TIfndef; TForeach] -> blanks w0 -> blanks1 s1 -> name_ok v ->
    blanks1 s2 -> body ty (Some v) [] None (w0 ++ keyword ty ++ s1 ++ v ++ s2)
| BBlock w0 s1 v s2 : blanks w0 -> blanks1 s1 -> In v block_names -> blanks1 s2 ->
    body TBlock (Some v) [] None (w0 ++ keyword TBlock ++ s1 ++ v ++ s2)
| BIfString w0 s1 v s2 o s3 b s4 : blanks w0 -> blanks1 s1 -> name_ok v -> blanks1 s2 ->
    o <> [] -> forallb (fun c => negb (isspace c)) o = true -> blanks1 s3 -> quoted b -> blanks s4 ->
    body TIf (Some v) o (Some (DQ :: b ++ [DQ]))
         (w0 ++ keyword TIf ++ s1 ++ v ++ s2 ++ o ++ s3 ++ DQ :: b ++ DQ :: s4)
| BIfVar w0 s1 v s2 o s3 v2 x s4 : blanks w0 -> blanks1 s1 -> name_ok v -> blanks1 s2 ->
    o <> [] -> forallb (fun c => negb (isspace c)) o = true -> blanks1 s3 -> name_ok v2 ->
    var_char x = false -> blanks s4 ->
    body TIf (Some v) o (Some v2)
         (w0 ++ keyword TIf ++ s1 ++ v ++ s2 ++ o ++ s3 ++ v2 ++ x :: s4).

(* < > <= >= == != *)
Definition operators : list (bytes * top) :=
  [(B "<", OLt); (B ">", OGt); (B "<=", OLe); (B ">=", OGe); (B "==", OEq); (B "!=", ONeq)].
Definition op_means (o : bytes) (op : top) : Prop := (o = [] /\ op = ONone) \/ In (o, op) operators.

(* a text: no brace opening a statement or a variable *)
Fixpoint text_ok (t : bytes) : bool :=
  match t with
  | [] => true
  | c :: r =>
      (if c == "{"%char
       then match r with [] => false | d :: _ => negb ((d == "{"%char) || (d == "%"%char)) end
       else true) && text_ok r
  end.

Inductive item : Type :=
| IText (t : bytes)
| IVar (s1 v s2 : bytes)
| ITag (ld : bool) (ty : ntype) (op : top) (d0 : option bytes) (o : bytes) (d1 : option bytes)
       (b : bytes) (rd : bool).

Definition item_ok (i : item) : Prop :=
  match i with
  | IText t => t <> [] /\ text_ok t = true
  | IVar s1 v s2 => blanks s1 /\ name_ok v /\ blanks s2
  | ITag ld ty op d0 o d1 b rd => body ty d0 o d1 b /\ op_means o op
  end.

Definition dash (d : bool) : bytes := if d then B "-" else [].
Definition item_text (i : item) : bytes :=
  match i with
  | IText t => t
  | IVar s1 v s2 => B "{{" ++ s1 ++ v ++ s2 ++ B "}}"
  | ITag ld _ _ _ _ _ b rd => B "{%" ++ dash ld ++ b ++ dash rd ++ B "%}"
  end.

Definition is_text (i : item) : bool := match i with IText _ => true | _ => false end.
(* texts are separated by tags *)
Fixpoint separated (l : list item) : bool :=
  match l with
  | i :: ((j :: _) as r) => negb (is_text i && is_text j) && separated r
  | _ => true
  end.

Definition items_ok (l : list item) : Prop := Forall item_ok l /\ separated l = true.
Definition items_text (l : list item) : bytes := concat (map item_text l).

(* the node of a tag *)
Definition item_node (i : item) : tnode :=
  match i with
  | IText t => Node TContent ONone (Some (cstr t)) None
  | IVar s1 v s2 => Node TVariable ONone (Some v) None
  | ITag ld ty op d0 o d1 b rd => Node ty op d0 (option_map cstr d1)
  end.

(* ---- meaning ---- *)

(* does the next tag begin with a whitespace cleaner *)
Definition cleans_before (l : list item) : bool :=
  match l with ITag true _ _ _ _ _ _ _ :: _ => true | _ => false end.

(* The documented meaning: a cleaner removes the blanks next to it. [cl] says
   whether the tag just before ended in a cleaner. *)
Fixpoint ideal_nodes (cl : bool) (l : list item) : list tnode :=
  match l with
  | [] => []
  | IText t :: r =>
      let t1 := if cl then lstrip (cstr t) else cstr t in
      Node TContent ONone (Some (if cleans_before r then rstrip t1 else t1)) None :: ideal_nodes false r
  | ITag ld ty op d0 o d1 b rd as i :: r => item_node i :: ideal_nodes rd r
  | IVar s1 v s2 as i :: r => item_node i :: ideal_nodes false r
  end.

(* What the code does: the cleaner of a statement stays pending over following
   statements and variables until the next text. *)
Fixpoint doc_nodes (cl : bool) (l : list item) : list tnode :=
  match l with
  | [] => []
  | IText t :: r =>
      let t1 := if cl then lstrip (cstr t) else cstr t in
      Node TContent ONone (Some (if cleans_before r then rstrip t1 else t1)) None :: doc_nodes false r
  | ITag ld ty op d0 o d1 b rd as i :: r => item_node i :: doc_nodes (cl || rd) r
  | IVar s1 v s2 as i :: r => item_node i :: doc_nodes cl r
  end.

(* documents where both readings agree: every tag between a closing cleaner and
   the next text has a closing cleaner itself *)
Fixpoint cleaners_adjacent (cl : bool) (l : list item) : bool :=
  match l with
  | [] => true
  | IText _ :: r => cleaners_adjacent false r
  | ITag _ _ _ _ _ _ _ rd :: r => (negb cl || rd || negb (existsb is_text r)) && cleaners_adjacent (cl || rd) r
  | IVar _ _ _ :: r => (negb cl || negb (existsb is_text r)) && cleaners_adjacent cl r
  end.

(* ---- structure ---- *)

(* the statements that open and close a scope, and what they are *)
Inductive scope : Type := ScIf | ScFor | ScBlock.
Definition opens (ty : ntype) : option scope :=
  match ty with
  | TIf | TIfdef | TIfndef => Some ScIf | TForeach => Some ScFor | TBlock => Some ScBlock
  | _ => None
  end.
Definition closes (ty : ntype) : option scope :=
  match ty with TEndif => Some ScIf | TEndforeach => Some ScFor | TEndblock => Some ScBlock | _ => None end.
Definition scope_eqb (a b : scope) : bool :=
  match a, b with ScIf, ScIf | ScFor, ScFor | ScBlock, ScBlock => true | _, _ => false end.

(* Looking only at the scopes selected by [sel]: every closing statement closes
   the innermost open scope. The result is what stays open. *)
Fixpoint nest (sel : scope -> bool) (stack : list scope) (l : list ntype) : option (list scope) :=
  match l with
  | [] => Some stack
  | ty :: r =>
      match opens ty, closes ty with
      | Some sc, _ => if sel sc then nest sel (sc :: stack) r else nest sel stack r
      | None, Some sc =>
          if sel sc then match stack with
                         | sc' :: st => if scope_eqb sc sc' then nest sel st r else None
                         | [] => None
                         end
          else nest sel stack r
      | None, None => nest sel stack r
      end
  end.

Definition ifs_blocks (s : scope) : bool := match s with ScFor => false | _ => true end.
Definition fors_blocks (s : scope) : bool := match s with ScIf => false | _ => true end.
Definition all_scopes (s : scope) : bool := true.

(* at every else a conditional is the innermost open scope among conditionals
   and blocks *)
Definition else_inside (l : list ntype) : Prop :=
  forall a b, l = a ++ TElse :: b -> exists st, nest ifs_blocks [] a = Some (ScIf :: st).

(* no scope of the kind opens inside another one of the same kind *)
Definition not_nested (sc : scope) (l : list ntype) : Prop :=
  forall a ty b, l = a ++ ty :: b -> opens ty = Some sc ->
  nest (scope_eqb sc) [] a = Some [].

(* conditionals and blocks are properly nested in each other, loops and blocks
   are properly nested in each other, neither blocks nor loops are nested in
   themselves, else is inside a conditional (of the same block) *)
Definition well_structured (l : list ntype) : Prop :=
  nest ifs_blocks [] l = Some [] /\ nest fors_blocks [] l = Some [] /\
  not_nested ScBlock l /\ not_nested ScFor l /\ else_inside l.

Definition types (l : list tnode) : list ntype := map n_type l.

(* Properly nested statements, as the documentation describes them: an if has
   at most one else, and blocks and loops may contain anything but themselves.
   [b], [f]: inside a block, inside a loop. *)
Inductive proper : bool -> bool -> list ntype -> Prop :=
| ProNil b f : proper b f []
| ProLeaf b f ty l : In ty [TVariable; TContent] -> proper b f l -> proper b f (ty :: l)
| ProIf b f ty t l : In ty [TIf; TIfdef; TIfndef] -> proper b f t -> proper b f l ->
    proper b f (ty :: t ++ TEndif :: l)
| ProIfElse b f ty t e l : In ty [TIf; TIfdef; TIfndef] -> proper b f t -> proper b f e -> proper b f l ->
    proper b f (ty :: t ++ TElse :: e ++ TEndif :: l)
| ProFor b t l : proper b true t -> proper b false l -> proper b false (TForeach :: t ++ TEndforeach :: l)
| ProBlock f t l : proper true f t -> proper false f l -> proper false f (TBlock :: t ++ TEndblock :: l).

(* the document does not end in a text whose last byte but one is a brace *)
Definition last_text_kept (l : list item) : Prop :=
  forall l' u x, l <> l' ++ [IText (u ++ ["{"%char; x])].
