(* What a document means: the elements it consists of and the HTML of each. *)
From Verif Require Import Base InlineSpec BlockSpec.

(* the line endings a document may use throughout *)
Definition ending (e : bytes) : Prop := In e [[LF]; [CR]; [CR; LF]; [LF; CR]].

(* a part of a line *)
Definition on_line (l : bytes) : Prop := Forall (fun c => ~ newline_byte c /\ c <> NUL) l.
Definition blank (c : ascii) : Prop := c = SP \/ c = TAB.
(* a part of a line that begins with something else than a blank *)
Definition visible (l : bytes) : Prop := on_line l /\ exists c r, l = c :: r /\ ~ blank c.

(* lines with line endings between them, or after each of them *)
Fixpoint joined (e : bytes) (ls : list bytes) : bytes :=
  match ls with [] => [] | [l] => l | l :: r => l ++ e ++ joined e r end.
Definition ended (e : bytes) (ls : list bytes) : bytes := flat_map (fun l => l ++ e) ls.
(* the line ending a document uses throughout; it is LF if there is only one line *)
Definition lines_end (x e : bytes) : Prop := ending e /\ (Exists newline_byte x \/ e = [LF]).

(* inline markup with its meaning; the text does not end with an unfinished escape *)
Definition markup (x y : bytes) : Prop := means x y /\ odd_tail x = false.

(* an anchor name: letters in lower case, digits, and hyphens for the rest *)
Definition anchor_byte (c d : ascii) : Prop :=
  (is_lower c = true \/ is_digit c = true -> d = c) /\
  (is_upper c = true -> is_lower d = true /\ nb d = (nb c + 32)%N) /\
  (is_lower c = false -> is_digit c = false -> is_upper c = false -> d = "-"%char).
Definition anchor (t s : bytes) : Prop := Forall2 anchor_byte t s.

Inductive element : Type :=
| EPara (lines : list bytes) (h : bytes)      (* lines of a paragraph and their HTML *)
| EHead (n : nat) (d t s h : bytes)           (* level, in decimal, text, anchor, HTML *)
| ECut                                        (* the end of the excerpt *)
| ERule
| EHtml (lines : list bytes)
| ECode (lines : list bytes)
| EQuote (inner : bytes)                      (* HTML of the quoted document *)
| EList (tag : bytes) (items : list bytes).   (* HTML of the items *)

Definition escape_byte (c : ascii) : bytes :=
  if c == "&"%char then B "&amp;" else if c == "<"%char then B "&lt;" else if c == ">"%char then B "&gt;"
  else if c == DQ then B "&quot;" else if c == SQ then B "&#x27;" else if c == "/"%char then B "&#x2F;" else [c].
Definition escape (t : bytes) : bytes := flat_map escape_byte t.

Definition element_html (e : bytes) (x : element) : bytes :=
  match x with
  | EPara _ h => B "<p>" ++ h ++ B "</p>" ++ e
  | EHead _ d _ s h => B "<h" ++ d ++ B " id=""" ++ s ++ B """>" ++ h ++ B "</h" ++ d ++ B ">" ++ e
  | ECut => []
  | ERule => B "<hr />" ++ e
  | EHtml ls => joined e ls ++ e
  | ECode ls => B "<pre><code>" ++ joined e (map escape ls) ++ B "</code></pre>" ++ e
  | EQuote h => B "<blockquote>" ++ h ++ B "</blockquote>" ++ e
  | EList tag hs => B "<" ++ tag ++ B ">" ++ e ++ flat_map (fun h => B "<li>" ++ h ++ B "</li>" ++ e) hs
                      ++ B "</" ++ tag ++ B ">" ++ e
  end.
Definition doc_html (e : bytes) (l : list element) : bytes := flat_map (element_html e) l.

(* a text without the white space around it *)
Definition white (c : ascii) : bool := existsb (Ascii.eqb c) [SP; TAB; LF; VT; FF; CR].
Fixpoint ltrim (t : bytes) : bytes := match t with c :: r => if white c then ltrim r else t | [] => [] end.
Definition trim (t : bytes) : bytes := rev (ltrim (rev (ltrim t))).

(* the first header, escaped; the first paragraph as one line, escaped; what
   comes before the (last) end of the excerpt *)
Fixpoint first_header (l : list element) : option bytes :=
  match l with [] => None | EHead _ _ t _ _ :: _ => Some (escape t) | _ :: r => first_header r end.
Fixpoint description (l : list element) : option bytes :=
  match l with
  | [] => None
  | EPara ls _ :: _ => Some (escape (trim (joined [SP] (map trim ls))))
  | _ :: r => description r
  end.
Fixpoint excerpt (e : bytes) (done : bytes) (cut : option bytes) (l : list element) : option bytes :=
  match l with
  | [] => cut
  | x :: r => excerpt e (done ++ element_html e x) (match x with ECut => Some done | _ => cut end) r
  end.

(* the first line of a paragraph: it begins with none of the marks of another block, or with
   such marks that are followed by something else: hashes or an asterisk without a blank, two
   or more marks of a list or rule, digits without a full stop, or full stops *)
Inductive para_first (exc : bool) : bytes -> Prop :=
| PF_plain c r : ~ In c (B "#*+-<>") -> is_digit c = false -> ~ blank c -> (exc = true -> c <> "."%char) -> para_first exc (c :: r)
| PF_hash n c r : c <> "#"%char -> ~ blank c -> para_first exc (repeat "#"%char (S n) ++ c :: r)
| PF_star c r : c <> "*"%char -> ~ blank c -> para_first exc ("*"%char :: c :: r)
| PF_marks d n c r : In d (B "*+-") -> c <> d -> para_first exc (repeat d (2 + n) ++ c :: r)
| PF_digits ds c r : ds <> [] -> Forall (fun d => is_digit d = true) ds -> is_digit c = false -> c <> "."%char -> para_first exc (ds ++ c :: r)
| PF_dots n c r : c <> "."%char -> para_first exc (repeat "."%char (S n) ++ c :: r).
Definition text_line (l : bytes) : Prop := l <> [] /\ on_line l.

(* the text of list items, with the lines continued under the item's text *)
Definition item_lines (p : bytes) (l : bytes) (more : list bytes) : list bytes :=
  (p ++ l) :: map (fun x => repeat SP (length p) ++ x) more.
Definition bullet (d : ascii) (p : bytes) (l : bytes) : Prop :=
  In d (B "*+-") /\ exists w, p = d :: w /\ Forall blank w /\
  (w = [] -> d <> "*"%char /\ exists c r, l = c :: r /\ c <> d).
Definition numbered (p : bytes) : Prop :=
  exists ds w, p = ds ++ "."%char :: w /\ ds <> [] /\ Forall (fun c => is_digit c = true) ds /\ Forall blank w.

(* an item: prefix, text of its first line, texts of its further lines, HTML *)
Definition item_ok (e : bytes) (it : bytes * bytes * list bytes * bytes) : Prop :=
  let '(p, l, more, h) := it in
  on_line l /\ Forall on_line more /\ markup (joined e (l :: more)) h.
Definition item_src (it : bytes * bytes * list bytes * bytes) : list bytes :=
  let '(p, l, more, h) := it in item_lines p l more.
Definition item_prefix (it : bytes * bytes * list bytes * bytes) : bytes := let '(p, l, more, h) := it in p.
Definition item_text (it : bytes * bytes * list bytes * bytes) : bytes := let '(p, l, more, h) := it in l.
Definition item_html (it : bytes * bytes * list bytes * bytes) : bytes := let '(p, l, more, h) := it in h.

(* the blank line after a block, which may be missing at the end *)
Definition closed (e g x : bytes) : Prop := g = e \/ (g = [] /\ x = []).

(* the last line of a document needs no line ending, if it is long enough: without its last
   byte a single line still begins the block, a further line has something left *)
Definition long (first : Prop) (n : nat) (ls : list bytes) : Prop :=
  match ls with [_] => first | _ => n <= length (last ls []) end.

(* [doc e exc x l]: the text x with line ending e consists of the elements l;
   [exc] tells whether the end of the excerpt can be marked *)
Inductive doc (e : bytes) : bool -> bytes -> list element -> Prop :=
| D_nil exc : doc e exc [] []
| D_blank exc x l : doc e exc x l -> doc e exc (e ++ x) l
| D_para exc ls h g x l : ls <> [] -> Forall text_line ls -> para_first exc (hd [] ls) -> markup (joined e ls) h ->
    closed e g x -> doc e exc x l ->
    doc e exc (ended e ls ++ g ++ x) (EPara ls h :: l)
| D_head exc n w t d s h x l : 1 <= n -> Forall blank w -> w <> [] -> visible t -> markup t h ->
    decimal n d -> hd NUL d <> "0"%char -> anchor t s -> doc e exc x l ->
    doc e exc (repeat "#"%char n ++ w ++ t ++ e ++ x) (EHead n d t s h :: l)
| D_cut n x l : doc e true x l -> doc e true (repeat "."%char (S n) ++ e ++ e ++ x) (ECut :: l)
| D_rule exc c n x l : In c (B "*+-") -> doc e exc x l ->
    doc e exc (repeat c (3 + n) ++ e ++ x) (ERule :: l)
| D_html exc r ls g x l : Forall text_line (("<"%char :: r) :: ls) -> closed e g x -> doc e exc x l ->
    doc e exc (ended e (("<"%char :: r) :: ls) ++ g ++ x) (EHtml (("<"%char :: r) :: ls) :: l)
| D_code exc p l0 ls g x l : p <> [] -> Forall blank p -> visible l0 -> Forall on_line ls -> closed e g x -> doc e exc x l ->
    doc e exc (ended e (map (fun y => p ++ y) (l0 :: ls)) ++ g ++ x) (ECode (l0 :: ls) :: l)
| D_quote exc w l0 ls inner g x l : Forall blank w -> visible l0 -> Forall on_line ls ->
    doc e false (ended e (l0 :: ls)) inner -> closed e g x -> doc e exc x l ->
    doc e exc (ended e (map (fun y => ">"%char :: w ++ y) (l0 :: ls)) ++ g ++ x) (EQuote (doc_html e inner) :: l)
| D_ul exc c it its g x l : bullet c (item_prefix it) (item_text it) -> visible (item_text it) ->
    Forall (item_ok e) (it :: its) -> Forall (fun i => item_prefix i = item_prefix it) its ->
    closed e g x -> doc e exc x l ->
    doc e exc (ended e (flat_map item_src (it :: its)) ++ g ++ x) (EList (B "ul") (map item_html (it :: its)) :: l)
| D_ol exc it its g x l : visible (item_text it) -> Forall (item_ok e) (it :: its) ->
    Forall (fun i => numbered (item_prefix i) /\ length (item_prefix i) = length (item_prefix it) /\ item_text i <> []) (it :: its) ->
    closed e g x -> doc e exc x l ->
    doc e exc (ended e (flat_map item_src (it :: its)) ++ g ++ x) (EList (B "ol") (map item_html (it :: its)) :: l)
| D_para_end exc ls h : ls <> [] -> Forall text_line ls -> para_first exc (hd [] ls) -> markup (joined e ls) h ->
    long (para_first exc (removelast (hd [] ls))) 2 ls -> doc e exc (joined e ls) [EPara ls h]
| D_head_end exc n w t d s h : 1 <= n -> Forall blank w -> w <> [] -> visible t -> markup t h ->
    decimal n d -> hd NUL d <> "0"%char -> anchor t s -> visible (removelast t) ->
    doc e exc (repeat "#"%char n ++ w ++ t) [EHead n d t s h]
| D_rule_end exc c n : In c (B "*+-") -> doc e exc (repeat c (3 + n)) [ERule]
| D_html_end exc r ls : Forall text_line (("<"%char :: r) :: ls) -> long (r <> []) 2 (("<"%char :: r) :: ls) ->
    doc e exc (joined e (("<"%char :: r) :: ls)) [EHtml (("<"%char :: r) :: ls)]
| D_code_end exc p l0 ls : p <> [] -> Forall blank p -> visible l0 -> Forall on_line ls ->
    long (visible (removelast l0)) 1 (l0 :: ls) ->
    doc e exc (joined e (map (fun y => p ++ y) (l0 :: ls))) [ECode (l0 :: ls)]
| D_quote_end exc w l0 ls inner : Forall blank w -> visible l0 -> Forall on_line ls ->
    doc e false (ended e (l0 :: ls)) inner -> long (visible (removelast l0)) 1 (l0 :: ls) ->
    doc e exc (joined e (map (fun y => ">"%char :: w ++ y) (l0 :: ls))) [EQuote (doc_html e inner)]
| D_ul_end exc c it its : bullet c (item_prefix it) (item_text it) -> visible (item_text it) ->
    Forall (item_ok e) (it :: its) -> Forall (fun i => item_prefix i = item_prefix it) its ->
    long (visible (removelast (item_text it))) 2 (flat_map item_src (it :: its)) ->
    doc e exc (joined e (flat_map item_src (it :: its))) [EList (B "ul") (map item_html (it :: its))]
| D_ol_end exc it its : visible (item_text it) -> Forall (item_ok e) (it :: its) ->
    Forall (fun i => numbered (item_prefix i) /\ length (item_prefix i) = length (item_prefix it) /\ item_text i <> []) (it :: its) ->
    long (visible (removelast (item_text it))) 2 (flat_map item_src (it :: its)) ->
    doc e exc (joined e (flat_map item_src (it :: its))) [EList (B "ol") (map item_html (it :: its))].
