(* What a configuration file is, and what it means: independent of the parser.
   A document is a preamble followed by sections; a section is a header followed
   by lines. *)
From Verif Require Import Base TrieProofs.

(* a byte of a value: itself, or preceded by a backslash *)
Inductive tok : Type := Lit (c : ascii) | Esc (c : ascii).
Definition tok_bytes (t : tok) : bytes := match t with Lit c => [c] | Esc c => [BSL; c] end.
Definition tok_char (t : tok) : ascii := match t with Lit c | Esc c => c end.
Definition toks_bytes (l : list tok) : bytes := flat_map tok_bytes l.
Definition toks_chars (l : list tok) : bytes := map tok_char l.

(* a value as written after the '=' (or as a list item): blanks, the value,
   blanks *)
Inductive value : Type :=
| Plain (pre : bytes) (l : list tok) (post : bytes)
| Quoted (pre : bytes) (l : list tok) (post : bytes).

Inductive line : Type :=
| Blank (w : bytes)                                   (* white space, any newlines *)
| Remark (mark : ascii) (text : bytes) (eol : ascii)  (* # or ; comment *)
| Key (k kpost : bytes) (v : value) (eol : ascii)     (* k = v *)
| Item (v : value) (eol : ascii).                     (* v *)

Record doc : Type := Doc { d_pre : list line; d_secs : list (bytes * list line) }.

(* ---------- the text ---------- *)
Definition value_text (v : value) : bytes :=
  match v with
  | Plain pre l post => pre ++ toks_bytes l ++ post
  | Quoted pre l post => pre ++ [DQ] ++ toks_bytes l ++ [DQ] ++ post
  end.
(* without the end of line *)
Definition line_text0 (l : line) : bytes :=
  match l with
  | Blank w => w
  | Remark m t _ => [m] ++ t
  | Key k kp v _ => k ++ kp ++ ["="%char] ++ value_text v
  | Item v _ => value_text v
  end.
Definition line_eol (l : line) : bytes :=
  match l with
  | Blank _ => []
  | Remark _ _ e | Key _ _ _ e | Item _ e => [e]
  end.
Definition line_text (l : line) : bytes := line_text0 l ++ line_eol l.
Definition section_text (s : bytes * list line) : bytes :=
  ["["%char] ++ fst s ++ ["]"%char] ++ flat_map line_text (snd s).
Definition doc_text (d : doc) : bytes :=
  flat_map line_text (d_pre d) ++ flat_map section_text (d_secs d).

(* ---------- which documents are well-formed ---------- *)
Definition newlines : bytes := [CR; LF].
Definition hblanks : bytes := [SP; TAB; FF; VT].
Definition over (a w : bytes) : Prop := Forall (fun c => In c a) w.

(* the bytes that may stand for themselves *)
Definition plain_tok (t : tok) : Prop :=
  match t with Lit c => ~ In c (BSL :: NUL :: newlines) | Esc c => c <> NUL end.
Definition quoted_tok (t : tok) : Prop :=
  match t with Lit c => ~ In c [BSL; NUL; DQ] | Esc c => c <> NUL end.
(* the first byte of a plain value is not escaped, not blank, not in [no]; the last one is
   not blank: [Lit " "], [Esc " "] at the end would be stripped *)
Definition plain_first (no : bytes) (l : list tok) : Prop :=
  forall t r, l = t :: r -> exists c, t = Lit c /\ ~ In c (hblanks ++ no).
Definition plain_last (l : list tok) : Prop :=
  forall r t, l = r ++ [t] -> ~ In (tok_char t) (hblanks ++ newlines).

Definition value_ok (no : bytes) (v : value) : Prop :=
  match v with
  | Plain pre l post => over hblanks pre /\ Forall plain_tok l /\ plain_first (DQ :: no) l
      /\ plain_last l /\ over hblanks post /\ (l = [] -> post = [])
  | Quoted pre l post => over hblanks pre /\ Forall quoted_tok l /\ over hblanks post
  end.

Definition skip_ok (l : line) : Prop :=
  match l with
  | Blank w => over [SP; TAB; CR; LF] w
  | Remark m t e => In m (B "#;") /\ Forall (fun c => ~ In c newlines) t /\ In e newlines
  | _ => False
  end.

Definition key_ok (k kpost : bytes) : Prop :=
  no_nul k /\ Forall (fun c => ~ In c ("="%char :: newlines)) k
  /\ (exists c r, k = c :: r /\ ~ In c (hblanks ++ B "#;["))
  /\ (forall r c, k = r ++ [c] -> ~ In c hblanks)
  /\ over hblanks kpost.

Definition map_line_ok (l : line) : Prop :=
  match l with
  | Key k kp v e => key_ok k kp /\ value_ok [] v /\ In e newlines
  | l => skip_ok l
  end.
(* an unquoted item is not empty and does not look like a comment or a header *)
Definition item_ok (v : value) : Prop :=
  value_ok (B "#;[") v /\ match v with Plain _ l _ => l <> [] | Quoted _ _ _ => True end.
Definition list_line_ok (l : line) : Prop :=
  match l with
  | Item v e => item_ok v /\ In e newlines
  | l => skip_ok l
  end.

Definition name_ok (n : bytes) : Prop :=
  n <> [] /\ Forall (fun c => ~ In c ("]"%char :: NUL :: newlines)) n.

Definition section_ok (lists : list bytes) (s : bytes * list line) : Prop :=
  name_ok (fst s) /\
  (In (fst s) lists -> Forall list_line_ok (snd s)) /\
  (~ In (fst s) lists -> Forall map_line_ok (snd s)).
Definition doc_ok (lists : list bytes) (d : doc) : Prop :=
  Forall skip_ok (d_pre d) /\ Forall (section_ok lists) (d_secs d).

(* ---------- the meaning ---------- *)
Definition value_of (v : value) : bytes :=
  match v with Plain _ l _ | Quoted _ l _ => toks_chars l end.
Definition keys_of (ls : list line) : list (bytes * bytes) :=
  flat_map (fun l => match l with Key k _ v _ => [(k, value_of v)] | _ => [] end) ls.
Definition items_of (ls : list line) : list bytes :=
  flat_map (fun l => match l with Item v _ => [value_of v] | _ => [] end) ls.

(* the section of that name: the last one if the name is repeated *)
Definition doc_section (d : doc) (name : bytes) : option (list line) := last_value (d_secs d) name.

(* ---------- end of file ---------- *)
(* the document followed by one more line *)
Definition add_line (d : doc) (l : line) : doc :=
  match rev (d_secs d) with
  | [] => Doc (d_pre d ++ [l]) []
  | (n, ls) :: r => Doc (d_pre d) (rev r ++ [(n, ls ++ [l])])
  end.

(* the lines that take effect even when the end of line is missing. Those that
   do not: "key=" followed by blanks only, a value whose last byte is escaped, a
   list item of one byte *)
Definition ends_lit (l : list tok) : bool :=
  match rev l with Lit _ :: _ => true | _ => false end.
Definition survives (l : line) : bool :=
  match l with
  | Blank _ | Remark _ _ _ => true
  | Key _ _ (Quoted _ _ _) _ | Item (Quoted _ _ _) _ => true
  | Key _ _ (Plain pre [] post) _ => match pre with [] => true | _ => false end
  | Key _ _ (Plain pre l post) _ => ends_lit (l ++ map Lit post)
  | Item (Plain pre l post) _ =>
      ends_lit (l ++ map Lit post) && Nat.ltb 1 (length (l ++ map Lit post))
  end.
