(* What the inline parser may emit: a small grammar of HTML fragments. Text is
   made of escaped bytes; elements are closed. [raw] tells whether links and
   images, whose attribute values are not escaped, may occur. *)
From Verif Require Import Base.

(* a text byte as HTML *)
Inductive text_byte : ascii -> bytes -> Prop :=
| TB_amp : text_byte "&" (B "&amp;")
| TB_lt : text_byte "<" (B "&lt;")
| TB_gt : text_byte ">" (B "&gt;")
| TB_dq : text_byte DQ (B "&quot;")
| TB_sq : text_byte SQ (B "&#x27;")
| TB_sl : text_byte "/" (B "&#x2F;")
| TB_plain c : ~ In c (B "&<>'/") -> c <> DQ -> text_byte c [c].

Inductive text_bytes : bytes -> bytes -> Prop :=
| TBs_nil : text_bytes [] []
| TBs_cons c e s t : text_byte c e -> text_bytes s t -> text_bytes (c :: s) (e ++ t).

Inductive html (raw : Prop) : bytes -> Prop :=
| H_nil : html raw []
| H_app x y : html raw x -> html raw y -> html raw (x ++ y)
| H_text c e : text_byte c e -> html raw e
| H_em x : html raw x -> html raw (B "<em>" ++ x ++ B "</em>")
| H_strong x : html raw x -> html raw (B "<strong>" ++ x ++ B "</strong>")
| H_code s t : text_bytes s t -> html raw (B "<code>" ++ t ++ B "</code>")
| H_br : html raw (B "<br />")
| H_ndash : html raw (B "&ndash;")
| H_mdash : html raw (B "&mdash;")
| H_link u x : raw -> html raw x -> html raw (B "<a href=""" ++ u ++ B """>" ++ x ++ B "</a>")
| H_auto u : raw -> html raw (B "<a href=""" ++ u ++ B """>" ++ u ++ B "</a>")
| H_img u a : raw -> html raw (B "<img src=""" ++ u ++ B """ alt=""" ++ a ++ B """>").

(* ------------------------------------------------------------------ *)
(* The meaning of inline markup: [means x h], the source text x is rendered as h. *)

(* removing one level of backslashes *)
Fixpoint unbackslash (s : bytes) : bytes :=
  match s with
  | [] => []
  | c :: r => if c == BSL then match r with [] => [] | d :: r' => d :: unbackslash r' end
              else c :: unbackslash r
  end.

(* no unescaped [d], and the text does not end with an unfinished escape *)
Fixpoint free_of (d : ascii) (s : bytes) : bool :=
  match s with
  | [] => true
  | c :: r => if c == BSL then match r with [] => false | _ :: r' => free_of d r' end
              else negb (c == d) && free_of d r
  end.
(* no unescaped [d] is followed by another [d], also not at the end of the text *)
Fixpoint pair_free (d : ascii) (s : bytes) : bool :=
  match s with
  | [] => true
  | c :: r => if c == BSL then match r with [] => false | _ :: r' => pair_free d r' end
              else if c == d then match r with [] => false | e :: _ => negb (e == d) && pair_free d r end
              else pair_free d r
  end.
(* brackets balance out with [n] open ones; escaped ones do not count *)
Fixpoint balanced (n : nat) (s : bytes) : bool :=
  match s with
  | [] => Nat.eqb n 0
  | c :: r => if c == BSL then match r with [] => false | _ :: r' => balanced n r' end
              else if c == "["%char then balanced (S n) r
              else if c == "]"%char then match n with 0 => false | S n => balanced n r end
              else balanced n r
  end.

Definition starts (c : ascii) (s : bytes) : bool :=
  match s with [] => false | d :: _ => d == c end.
Definition special : bytes := BSL :: SP :: B "*_`[!-".
Definition blank4 (s : bytes) : Prop := Forall (fun c => In c [SP; TAB; LF; CR]) s.

(* no unescaped [d], the text may end with an unfinished escape *)
Fixpoint without (d : ascii) (s : bytes) : bool :=
  match s with
  | [] => true
  | c :: r => if c == BSL then match r with [] => true | _ :: r' => without d r' end
              else negb (c == d) && without d r
  end.
(* the [n] open brackets and one more do not all get closed *)
Fixpoint unclosed (n : nat) (s : bytes) : bool :=
  match s with
  | [] => true
  | c :: r => if c == BSL then match r with [] => true | _ :: r' => unclosed n r' end
              else if c == "["%char then unclosed (S n) r
              else if c == "]"%char then match n with 0 => false | S n => unclosed n r end
              else unclosed n r
  end.
(* what follows the opening bracket of a link, or of an image, that the text ends within *)
Inductive link_cut : bytes -> Prop :=
| LC_text c t : c <> "["%char -> unclosed 0 t = true -> link_cut (c :: t)
| LC_between c t w : c <> "["%char -> balanced 0 t = true -> blank4 w -> link_cut (c :: t ++ "]"%char :: w)
| LC_address c t w u : c <> "["%char -> balanced 0 t = true -> blank4 w -> without ")" u = true ->
    link_cut (c :: t ++ "]"%char :: w ++ "("%char :: u).
Inductive image_cut : bytes -> Prop :=
| IC_text a : without "]" a = true -> image_cut a
| IC_between a w : free_of "]" a = true -> blank4 w -> image_cut (a ++ "]"%char :: w)
| IC_address a w u : free_of "]" a = true -> blank4 w -> without ")" u = true -> image_cut (a ++ "]"%char :: w ++ "("%char :: u).

(* [top]: the text is not within an emphasis *)
Inductive meaning (top : bool) : bytes -> bytes -> Prop :=
| M_nil : meaning top [] []
| M_plain c e x y : ~ In c special -> text_byte c e -> meaning top x y -> meaning top (c :: x) (e ++ y)
| M_last c e : text_byte c e -> meaning top [c] e
| M_escape c e x y : text_byte c e -> meaning top x y -> meaning top (BSL :: c :: x) (e ++ y)
| M_bang x y : starts "[" x = false -> meaning top x y -> meaning top ("!"%char :: x) ("!"%char :: y)
| M_space x y : starts SP x = false -> meaning top x y -> meaning top (SP :: x) (SP :: y)
| M_spaces n c x y : ~ In c [SP; LF; CR] -> meaning top (c :: x) y ->
    meaning top (repeat SP (2 + n) ++ c :: x) (repeat SP (2 + n) ++ y)
| M_break n c x y : In c [LF; CR] -> meaning top x y ->
    meaning top (repeat SP (2 + n) ++ c :: x) (B "<br />" ++ c :: y)
| M_break_end n : meaning top (repeat SP (2 + n)) (B "<br />")
| M_dash x y : starts "-" x = false -> meaning top x y -> meaning top ("-"%char :: x) ("-"%char :: y)
| M_ndash x y : starts "-" x = false -> meaning top x y -> meaning top (B "--" ++ x) (B "&ndash;" ++ y)
| M_mdash x y : meaning top x y -> meaning top (B "---" ++ x) (B "&mdash;" ++ y)
| M_em d u v x y : In d (B "*_") -> u <> [] -> free_of d u = true -> meaning false u v -> meaning top x y ->
    meaning top (d :: u ++ d :: x) (B "<em>" ++ v ++ B "</em>" ++ y)
| M_strong d u v x y : In d (B "*_") -> pair_free d u = true -> meaning false u v -> meaning top x y ->
    meaning top (d :: d :: u ++ d :: d :: x) (B "<strong>" ++ v ++ B "</strong>" ++ y)
| M_code u v x y : u <> [] -> free_of "`" u = true -> text_bytes u v -> meaning top x y ->
    meaning top ("`"%char :: u ++ "`"%char :: x) (B "<code>" ++ v ++ B "</code>" ++ y)
| M_code2 u v x y : pair_free "`" u = true -> text_bytes u v -> meaning top x y ->
    meaning top (B "``" ++ u ++ B "``" ++ x) (B "<code>" ++ v ++ B "</code>" ++ y)
| M_lone d x y : In d (B "*_`") -> x <> [] -> free_of d x = true -> meaning top x y ->
    meaning top (d :: x) (d :: y)
| M_link c t v w u x y : c <> "["%char -> balanced 0 t = true -> meaning true (c :: t) v -> blank4 w ->
    free_of ")" u = true -> meaning top x y ->
    meaning top (B "[" ++ (c :: t) ++ B "]" ++ w ++ B "(" ++ u ++ B ")" ++ x)
          (B "<a href=""" ++ unbackslash u ++ B """>" ++ v ++ B "</a>" ++ y)
| M_auto u x y : pair_free "]" u = true -> meaning top x y ->
    meaning top (B "[[" ++ u ++ B "]]" ++ x)
          (B "<a href=""" ++ unbackslash u ++ B """>" ++ unbackslash u ++ B "</a>" ++ y)
| M_image a w u x y : free_of "]" a = true -> blank4 w -> free_of ")" u = true -> meaning top x y ->
    meaning top (B "![" ++ a ++ B "]" ++ w ++ B "(" ++ u ++ B ")" ++ x)
          (B "<img src=""" ++ unbackslash u ++ B """ alt=""" ++ unbackslash a ++ B """>" ++ y)
(* marks that are not closed, and brackets that are not followed by an address, are text *)
| M_lone2 d k x y : In (d, k) [("*", "*"); ("_", "_"); ("`", "`"); ("[", "]")]%char -> x <> [] -> pair_free k x = true -> meaning top x y ->
    meaning top (d :: d :: x) (d :: d :: y)
| M_bracket c t w z x y : c <> "["%char -> balanced 0 t = true -> blank4 w -> ~ In z [SP; TAB; LF; CR; "("%char] ->
    meaning top (c :: t ++ "]"%char :: w ++ z :: x) y ->
    meaning top ("["%char :: c :: t ++ "]"%char :: w ++ z :: x) ("["%char :: y)
| M_image_bracket a w z x y : free_of "]" a = true -> blank4 w -> ~ In z [SP; TAB; LF; CR; "("%char] ->
    meaning top (a ++ "]"%char :: w ++ z :: x) y ->
    meaning top ("!"%char :: "["%char :: a ++ "]"%char :: w ++ z :: x) ("!"%char :: "["%char :: y)
(* a link or an image that the end of the text cuts off; one level of backslashes too many
   is removed from what is shown *)
| M_open x y : top = true -> link_cut x -> meaning true x y -> meaning top ("["%char :: x) ("["%char :: unbackslash y)
| M_image_open x y : top = true -> image_cut x -> meaning true x y ->
    meaning top ("!"%char :: "["%char :: x) ("!"%char :: "["%char :: unbackslash y).
Definition means : bytes -> bytes -> Prop := meaning true.

(* the text ends in an odd number of backslashes *)
Definition odd_step (o : bool) (c : ascii) : bool := if c == BSL then negb o else false.
Definition odd_tail (s : bytes) : bool := fold_left odd_step s false.
