(* What the block parser may emit, and the documents it is safe on. *)
From Verif Require Import Base InlineSpec.

Definition newline_byte (c : ascii) : Prop := c = LF \/ c = CR.
Definition slug_byte (c : ascii) : Prop :=
  is_lower c = true \/ is_digit c = true \/ c = "-"%char.

(* [n] written in decimal *)
Definition decimal (n : nat) (d : bytes) : Prop :=
  d <> [] /\ Forall (fun c => is_digit c = true) d /\
  fold_left (fun acc c => acc * 10 + (N.to_nat (nb c) - 48)) d 0 = n.

(* list items *)
Inductive items (raw : Prop) : bytes -> Prop :=
| IT_nil : items raw []
| IT_app x y : items raw x -> items raw y -> items raw (x ++ y)
| IT_nl c : newline_byte c -> items raw [c]
| IT_li x : html raw x -> items raw (B "<li>" ++ x ++ B "</li>").

(* A sequence of block elements; [raw] as for [html], [rawb] tells whether
   blocks copied from the document may occur. *)
Inductive bhtml (raw rawb : Prop) : bytes -> Prop :=
| BH_nil : bhtml raw rawb []
| BH_app x y : bhtml raw rawb x -> bhtml raw rawb y -> bhtml raw rawb (x ++ y)
| BH_nl c : newline_byte c -> bhtml raw rawb [c]
| BH_p x : html raw x -> bhtml raw rawb (B "<p>" ++ x ++ B "</p>")
| BH_h n d t x : 1 <= n -> decimal n d -> Forall slug_byte t -> html raw x ->
    bhtml raw rawb (B "<h" ++ d ++ B " id=""" ++ t ++ B """>" ++ x ++ B "</h" ++ d ++ B ">")
| BH_hr : bhtml raw rawb (B "<hr />")
| BH_quote x : bhtml raw rawb x -> bhtml raw rawb (B "<blockquote>" ++ x ++ B "</blockquote>")
| BH_code s t : text_bytes s t -> bhtml raw rawb (B "<pre><code>" ++ t ++ B "</code></pre>")
| BH_ul x : items raw x -> bhtml raw rawb (B "<ul>" ++ x ++ B "</ul>")
| BH_ol x : items raw x -> bhtml raw rawb (B "<ol>" ++ x ++ B "</ol>")
| BH_raw x : rawb -> bhtml raw rawb x.

(* ------------------------------------------------------------------ *)
(* after [x] a new line begins *)
Definition line_break (x : bytes) : Prop := x = [] \/ exists x' c, x = x' ++ [c] /\ newline_byte c.

(* no line ends in a backslash *)
Definition no_trailing_backslash (s : bytes) : Prop :=
  forall x y, s = x ++ BSL :: y -> exists c r, y = c :: r /\ ~ newline_byte c.

(* the text that begins here looks like a list item: an asterisk followed by a
   blank or nothing, a plus or minus sign that is not doubled, or digits and a
   full stop *)
Fixpoint digits_dot (s : bytes) : bool :=
  match s with [] => false | c :: r => if is_digit c then digits_dot r else c == "."%char end.
Definition list_like (s : bytes) : bool :=
  match s with
  | [] => false
  | c :: r =>
      if c == "*"%char then match r with d :: _ => (d == SP) || (d == TAB) || (d == LF) || (d == CR) | [] => true end
      else if (c == "+"%char) || (c == "-"%char) then match r with d :: _ => negb (d == c) | [] => true end
      else is_digit c && digits_dot r
  end.
(* what follows blockquote marks and blanks *)
Fixpoint unquoted (s : bytes) : bytes :=
  match s with
  | c :: r => if (c == ">"%char) || (c == SP) || (c == TAB) then unquoted r else s
  | [] => []
  end.
Definition no_list_lines (s : bytes) : Prop :=
  forall x y, s = x ++ y -> line_break x -> list_like (unquoted y) = false.

(* only one of the two newline bytes is used *)
Definition one_newline_byte (s : bytes) : Prop := ~ In CR s \/ ~ In LF s.
