(* What rendering a template means: a recursive reading of the nested statements,
   written from man/blogc-template.7.ronn. *)
From Verif Require Import Base Utils Trie Template.

(* ---- nested programs ---- *)

Inductive cond : Type :=
| CDef (v : bytes)                          (* ifdef v *)
| CNdef (v : bytes)                         (* ifndef v *)
| CCmp (v : bytes) (o : top) (d : bytes).   (* if v o d *)

(* a sequence of statements *)
Inductive prog : Type :=
| PEnd
| PText (t : bytes) (k : prog)
| PVar (v : bytes) (k : prog)
| PIf (c : cond) (a k : prog)
| PIfElse (c : cond) (a b k : prog)
| PFor (v : bytes) (a k : prog)
| PBlock (name : bytes) (a k : prog).

Definition cond_node (c : cond) : tnode :=
  match c with
  | CDef v => Node TIfdef ONone (Some v) None
  | CNdef v => Node TIfndef ONone (Some v) None
  | CCmp v o d => Node TIf o (Some v) (Some d)
  end.
Definition closing (ty : ntype) : tnode := Node ty ONone None None.

(* the flat list of nodes a parser makes of it *)
Fixpoint flatten (t : prog) : list tnode :=
  match t with
  | PEnd => []
  | PText x k => Node TContent ONone (Some x) None :: flatten k
  | PVar v k => Node TVariable ONone (Some v) None :: flatten k
  | PIf c a k => cond_node c :: flatten a ++ closing TEndif :: flatten k
  | PIfElse c a b k => cond_node c :: flatten a ++ closing TElse :: flatten b ++ closing TEndif :: flatten k
  | PFor v a k => Node TForeach ONone (Some v) None :: flatten a ++ closing TEndforeach :: flatten k
  | PBlock n a k => Node TBlock ONone (Some n) None :: flatten a ++ closing TEndblock :: flatten k
  end.

Definition cond_ok (c : cond) : Prop :=
  match c with CDef v | CNdef v => v <> [] | CCmp v o d => v <> [] /\ d <> [] /\ o <> ONone end.

(* no block inside a block, no loop inside a loop, no empty names *)
Fixpoint fits (b f : bool) (t : prog) : Prop :=
  match t with
  | PEnd => True
  | PText _ k => fits b f k
  | PVar v k => v <> [] /\ fits b f k
  | PIf c x k => cond_ok c /\ fits b f x /\ fits b f k
  | PIfElse c x y k => cond_ok c /\ fits b f x /\ fits b f y /\ fits b f k
  | PFor v x k => f = false /\ fits b true x /\ fits b f k
  | PBlock n x k => b = false /\ fits true f x /\ fits b f k
  end.

(* ---- values ---- *)

(* the words of a list variable *)
Fixpoint words_from (w : bytes) (s : bytes) : list bytes :=
  match s with
  | [] => match w with [] => [] | _ => [w] end
  | c :: r => if c == SP then match w with [] => words_from [] r | _ => w :: words_from [] r end
              else words_from (w ++ [c]) r
  end.
Definition words (s : bytes) : list bytes := words_from [] s.

(* the order of C strings *)
Fixpoint before (a b : bytes) : bool :=
  match a, b with
  | _, [] => false
  | [], _ :: _ => true
  | x :: a', y :: b' => N.ltb (nb x) (nb y) || (N.eqb (nb x) (nb y) && before a' b')
  end.
Definition compare (o : top) (a b : bytes) : bool :=
  match o with
  | OLt => before a b | OGt => before b a | OLe => negb (before b a) | OGe => negb (before a b)
  | OEq => beq a b | ONeq => negb (beq a b)
  | ONone => false
  end.

(* base_123: the base and the digits *)
Fixpoint span_digits (s : bytes) : bytes * bytes :=
  match s with
  | c :: r => if is_digit c then let '(d, x) := span_digits r in (c :: d, x) else ([], s)
  | [] => ([], [])
  end.
Definition size_suffix (name : bytes) : option (bytes * bytes) :=
  match span_digits (rev name) with
  | (d, c :: x) => if (c == "_"%char) && negb (beq d []) then Some (rev x, rev d) else None
  | (_, []) => None
  end.
Fixpoint decimal_from (a : N) (s : bytes) : N :=
  match s with [] => a | c :: r => decimal_from (a * 10 + (nb c - 48)) r end.
Definition decimal (s : bytes) : N := decimal_from 0 s.

(* base_FORMATTED *)
Definition formatted_suffix (name : bytes) : option bytes :=
  if beq (rev (firstn 10 (rev name))) (B "_FORMATTED") then Some (rev (skipn 10 (rev name))) else None.

(* upper case, everything but letters and digits replaced by _ *)
Definition shout (c : ascii) : ascii :=
  if is_lower c then ascii_of_N (nb c - 32) else if is_upper c || is_digit c then c else "_"%char.

Section Meaning.
(* a date in another format, when it can be converted *)
Variable convert : bytes -> bytes -> option bytes.
(* the variables computed on demand *)
Variable inject : trie bytes -> bytes -> trie bytes.

Definition lookup (name : bytes) (global : trie bytes) (local : option (trie bytes)) : option bytes :=
  match match local with Some l => trie_lookup l name | None => None end with
  | Some v => Some v
  | None => trie_lookup global name
  end.

Definition first_bytes (n : N) (s : bytes) : bytes :=
  if N.leb (N.of_nat (length s)) n then s else firstn (N.to_nat n) s.

(* the value of a variable; [loop] is the list variable and the word of the
   foreach around it. Sizes above the largest long are cut there: no string is
   that long. *)
Definition resolve (name : bytes) (global : trie bytes) (local : option (trie bytes))
  (loop : option (bytes * bytes)) : option bytes * trie bytes :=
  match lookup name global local with
  | Some v => (Some v, global)
  | None =>
      let special (v : bytes) : option (option bytes) :=
        match loop with
        | Some (l, w) =>
            if beq v (B "FOREACH_ITEM") then Some (Some w)
            else if beq v (B "FOREACH_VALUE") then
              Some (lookup (map shout l ++ B "__" ++ map shout w) global local)
            else None
        | None => None
        end in
      if beq name (B "FOREACH_ITEM") || beq name (B "FOREACH_VALUE")
      then (match special name with Some v => v | None => None end, global)
      else
        let '(base, size) := match size_suffix name with
                             | Some (b, d) => (b, Some (N.min (decimal d) (2 ^ 63 - 1)))
                             | None => (name, None)
                             end in
        let '(base, format) := match formatted_suffix base with
                               | Some b => (b, true)
                               | None => (base, false)
                               end in
        let '(value, global) := match special base with
                                | Some v => (v, global)
                                | None => let g := inject global base in (lookup base g local, g)
                                end in
        (option_map (fun v =>
           let v := if format && starts_with name (B "DATE_") then
                      match lookup (B "DATE_FORMAT") global local with
                      | Some f => match convert v f with Some r => r | None => v end
                      | None => v
                      end
                    else v in
           match size with
           | Some n => if N.eqb n 0 then v else first_bytes n v
           | None => v
           end) value, global)
  end.

(* ---- the meaning of a program ---- *)

Variable sources : list (trie bytes).
Variable listing : bool.
(* [true]: what the code does; [false]: the documented scoping. They differ in
   the variables seen outside entry, listing and listing_entry blocks. *)
Variable stale : bool.

(* entries left, configuration, the source whose variables are visible, the
   source that was visible last *)
Record env : Type := Env
  { e_global : trie bytes; e_entries : list (option (trie bytes));
    e_local : option (trie bytes); e_last : option (trie bytes) }.
Definition see (e : env) (l : option (trie bytes)) : env := Env (e_global e) (e_entries e) l l.
Definition hide (e : env) : env := Env (e_global e) (e_entries e) None (e_last e).
Definition leave_skipped (e : env) : env :=
  if stale then Env (e_global e) (e_entries e) (e_last e) (e_last e) else e.
Definition enter_plain (e : env) : env :=
  Env (e_global e) (e_entries e) (if stale then e_last e else None) (e_last e).

Definition var_in (v : bytes) (loop : option (bytes * bytes)) (e : env) : option bytes * env :=
  let '(x, g) := resolve v (e_global e) (e_local e) loop in
  (x, Env g (e_entries e) (e_local e) (e_last e)).

Definition is_quoted (d : bytes) : option bytes :=
  match d with
  | c :: r => if (c == DQ) && (last r NUL == DQ) then Some (removelast r) else None
  | [] => None
  end.

Definition holds (c : cond) (loop : option (bytes * bytes)) (e : env) : bool * env :=
  match c with
  | CDef v => let '(x, e) := var_in v loop e in (match x with Some _ => true | None => false end, e)
  | CNdef v => let '(x, e) := var_in v loop e in (match x with Some _ => false | None => true end, e)
  | CCmp v o d =>
      let '(x, e) := var_in v loop e in
      let '(y, e) := match is_quoted d with Some s => (Some s, e) | None => var_in d loop e end in
      (match x, y with Some x, Some y => compare o x y | _, _ => false end, e)
  end.

(* one round after the other *)
Fixpoint rounds (A : Type) (f : A -> env -> bytes * env) (l : list A) (e : env) : bytes * env :=
  match l with
  | [] => ([], e)
  | x :: r => let '(o, e) := f x e in let '(o', e) := rounds f r e in (o ++ o', e)
  end.

(* how a block is executed *)
Inductive action : Type :=
| Skip
| Once                                       (* no source of its own *)
| Each (l : list (option (trie bytes))).     (* once for each source *)

Definition block_action (name : bytes) (e : env) : action * env :=
  if beq name (B "entry") then
    (if listing then Skip else Each [match sources with x :: _ => Some x | [] => None end], e)
  else if beq name (B "listing") then
    (if listing && negb (Nat.eqb (length sources) 0) then Each (map Some sources) else Skip, e)
  else if beq name (B "listing_once") then (if listing then Once else Skip, e)
  else if beq name (B "listing_empty") then
    (if listing && Nat.eqb (length sources) 0 then Once else Skip, e)
  else if beq name (B "listing_entry") then
    match e_entries e with
    | Some x :: r => (if listing then Each [Some x] else Skip, Env (e_global e) r (e_local e) (e_last e))
    | None :: r => (Skip, Env (e_global e) r (e_local e) (e_last e))     (* an empty entry *)
    | [] => (Skip, e)
    end
  else (Once, e).

Fixpoint meaning (t : prog) (loop : option (bytes * bytes)) (e : env) : bytes * env :=
  match t with
  | PEnd => ([], e)
  | PText x k => let '(o, e) := meaning k loop e in (x ++ o, e)
  | PVar v k =>
      let '(x, e) := var_in v loop e in
      let '(o, e) := meaning k loop e in (match x with Some x => x | None => [] end ++ o, e)
  | PIf c a k =>
      let '(b, e) := holds c loop e in
      let '(o1, e) := if b then meaning a loop e else ([], e) in
      let '(o2, e) := meaning k loop e in (o1 ++ o2, e)
  | PIfElse c a a' k =>
      let '(b, e) := holds c loop e in
      let '(o1, e) := if b then meaning a loop e else meaning a' loop e in
      let '(o2, e) := meaning k loop e in (o1 ++ o2, e)
  | PFor v a k =>
      let items := match lookup v (e_global e) (e_local e) with Some s => words s | None => [] end in
      let '(o1, e) := rounds (fun w => meaning a (Some (v, w))) items e in
      let '(o2, e) := meaning k loop e in (o1 ++ o2, e)
  | PBlock n a k =>
      let '(act, e) := block_action n e in
      let '(o1, e) :=
        match act with
        | Skip => ([], leave_skipped e)
        | Once => let '(o, e) := meaning a loop (enter_plain e) in (o, hide e)
        | Each l => rounds (fun x e => let '(o, e) := meaning a loop (see e x) in (o, hide e)) l e
        end in
      let '(o2, e) := meaning k loop e in (o1 ++ o2, e)
  end.

Definition output (t : prog) (entries : list (option (trie bytes))) (config : trie bytes) : bytes * trie bytes :=
  let '(o, e) := meaning t None (Env config entries None None) in (o, e_global e).

(* ---- templates for which the documented scoping holds ---- *)

(* blocks that certainly show a source, and those that may *)
Definition shows (name : bytes) : bool :=
  (beq name (B "entry") && negb listing) || (beq name (B "listing") && listing && negb (Nat.eqb (length sources) 0)).
Definition may_show (name : bytes) : bool := shows name || (beq name (B "listing_entry") && listing).

Fixpoint showing (t : prog) : bool :=
  match t with
  | PEnd => false
  | PText _ k | PVar _ k => showing k
  | PIf _ a k | PFor _ a k => showing a || showing k
  | PIfElse _ a b k => showing a || showing b || showing k
  | PBlock n _ k => may_show n || showing k
  end.

(* once a block may have shown a source ([seen]), only blocks that show one follow *)
Fixpoint calm (seen : bool) (t : prog) : bool :=
  match t with
  | PEnd => true
  | PText _ k | PVar _ k => calm seen k
  | PIf _ a k => calm seen a && calm (seen || showing a) k
  | PIfElse _ a b k => calm seen a && calm seen b && calm (seen || showing a || showing b) k
  | PFor _ a k => calm (seen || showing a) a && calm (seen || showing a) k
  | PBlock n _ k => (shows n || negb seen) && calm (seen || may_show n) k
  end.
End Meaning.
