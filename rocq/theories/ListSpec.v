(* Texts with lists whose lines all belong to an item. *)
From Verif Require Import Base BlockSpec DocSpec.

(* lines that are not empty, each with a line ending *)
Inductive lines_on : bytes -> Prop :=
| LO_nil : lines_on []
| LO_line u l e : lines_on u -> l <> [] -> Forall (fun c => ~ newline_byte c) l -> ending e -> lines_on (u ++ l ++ e).

(* [y] begins with an item of which [p] is the mark with the blanks after it *)
Definition bullet_mark (p y : bytes) : Prop :=
  exists d w c r, p = d :: w /\ y = p ++ c :: r /\ In d (B "*+-") /\ Forall blank w /\ ~ blank c /\ ~ newline_byte c /\
    (w = [] -> c <> d /\ d <> "*"%char).
Definition number_mark (p y : bytes) : Prop :=
  exists c r, y = p ++ c :: r /\ numbered p /\ ~ blank c /\ ~ newline_byte c.

(* a line that is indented as far as the text of the item *)
Definition indented (p v : bytes) : Prop := exists z, v = repeat SP (length p) ++ z.

(* up to the next empty line, every line after an item begins with the same mark, is indented,
   or, in a numbered list, begins with a number and a mark of the same length *)
Definition lists_kept (s : bytes) : Prop :=
  forall x y u c r, s = x ++ y -> line_break x -> y = u ++ c :: r -> lines_on u -> u <> [] -> ~ newline_byte c ->
    (forall p, bullet_mark p y -> (exists z, c :: r = p ++ z) \/ indented p (c :: r)) /\
    (forall p, number_mark p y ->
       (exists q d z, c :: r = q ++ d :: z /\ numbered q /\ length q = length p /\ ~ newline_byte d) \/ indented p (c :: r)).

(* no line with the mark of an item and no text *)
Definition no_empty_items (s : bytes) : Prop :=
  forall x p c r, s = x ++ p ++ c :: r -> line_break x ->
    (exists d w, p = d :: w /\ In d (B "*+-") /\ Forall blank w) \/ numbered p -> ~ newline_byte c.
(* no blockquotes *)
Definition no_quote_lines (s : bytes) : Prop := forall x y, s = x ++ ">"%char :: y -> ~ line_break x.

(* the lines of a quote with the mark [p]: what follows the mark on each of them, and the
   part of the text they are. If nothing follows the first mark, the next line is taken with it. *)
Inductive quoted (p : bytes) : list bytes -> bytes -> Prop :=
| QL_first n l c r : n = [] \/ (exists d, n = [d] /\ newline_byte d) -> Forall (fun c => ~ newline_byte c) l ->
    n ++ l = c :: r -> ~ blank c -> quoted p [n ++ l] (p ++ n ++ l)
| QL_next ls u d l : quoted p ls u -> newline_byte d -> Forall (fun c => ~ newline_byte c) l ->
    quoted p (ls ++ [l]) (u ++ d :: p ++ l).
(* the newline byte of a text *)
Definition newline_of (s : bytes) (x : ascii) : Prop := newline_byte x /\ (In x s \/ (x = LF /\ ~ In CR s)).
(* [t] is the text of a quote of [s] *)
Definition quote_text (s t : bytes) : Prop :=
  exists w u z x p b ls, s = w ++ u ++ z /\ line_break w /\ (z = [] \/ exists c r, z = c :: r /\ newline_byte c) /\
    p = ">"%char :: b /\ Forall blank b /\ quoted p ls u /\ newline_of s x /\ t = flat_map (fun l => l ++ [x]) ls.
(* the text itself, the texts of its quotes, those of the quotes in them, and so on *)
Inductive inside (s : bytes) : bytes -> Prop :=
| In_self : inside s s
| In_quote t q : inside s t -> quote_text t q -> inside s q.
