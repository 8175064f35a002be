(* The expectations of the unit tests of the project (tests/blogc, but not the parsers of contents and sources and the renderer), as
   statements on the model. Written by a program from the C text of the tests: every
   call to a modelled function is replaced by the model, every assertion by an
   equation. Assertions on NULL arguments, on error codes and on functions that are not
   modelled are left out. These are tests of the model, not proofs of properties. *)
From Coq Require Import ZArith DecimalString.
From Verif Require Import Base Utils ErrorPos Template Toctree Filelist Datetime.
#[local] Open Scope nat_scope.


Ltac tests := repeat match goal with |- _ /\ _ => split end; vm_compute; reflexivity.
(* assert_null *)
Definition isnone (A : Type) (x : option A) : bool := match x with None => true | Some _ => false end.
(* an array of strings, or NULL: the string at an index *)
Definition at_ (x : option (list bytes)) (n : nat) : option bytes := match x with Some l => nth_error l n | None => None end.
Definition olen (x : option (list bytes)) : nat := match x with Some l => length l | None => 0 end.
Definition ok_opt (A : Type) (x : res (option A)) : option A := match x with Ok r => r | _ => None end.
Definition num (n : nat) : bytes := B (NilEmpty.string_of_uint (Nat.to_uint n)).
(* the message of bc_error_parser, error.c 34-90 *)
Definition near (src : bytes) (at' : nat) (msg : bytes) : bytes :=
  match error_near src at' with
  | Some (line, pos, text) => msg ++ [LF] ++ B "Error occurred near line " ++ num line ++ B ", position " ++ num pos ++ B ": " ++ text
  | None => msg
  end.

Definition hd_at (l : list header) (n : nat) : header := nth n l (Header 0 None None).
Definition fl_of (r : res (list (nat * bytes))) : list bytes := match r with Ok l => map snd l | _ => [] end.
(* template-parser.c: the nodes *)
Definition tp_of (s : bytes) : list tnode := match template_parse s with Ok (Datatypes.inl l) => l | _ => [] end.
Definition node_at (l : list tnode) (n : nat) : option (ntype * option bytes) := option_map (fun d => (n_type d, n_d0 d)) (nth_error l n).
Definition if_at (l : list tnode) (n : nat) : option (option bytes * top * option bytes) :=
  match nth_error l n with Some d => match n_type d with TIf => Some (n_d0 d, n_op d, n_d1 d) | _ => None end | None => None end.
(* template-parser.c: the texts of the messages *)
Definition shown (b : option bytes) : bytes := match b with Some b => b | None => B "(null)" end.
Definition tmsg_text (m : tmsg) : bytes :=
  match m with
  | MDupCleanBefore => B "Invalid statement syntax. Duplicated whitespace cleaner before statement."
  | MStmtLower => B "Invalid statement syntax. Must begin with lowercase letter."
  | MNested => B "Blocks can't be nested."
  | MIfsInBlock n b => num n ++ B " open 'if', 'ifdef' and/or 'ifndef' statements were not closed inside a '" ++ shown b ++ B "' block!"
  | MForeachInBlock b => B "An open 'foreach' statement was not closed inside a '" ++ shown b ++ B "' block!"
  | MEndblock => B "'endblock' statement without an open 'block' statement."
  | MTwoElse => B "More than one 'else' statement for an open 'if', 'ifdef' or 'ifndef' statement."
  | MElse => B "'else' statement without an open 'if', 'ifdef' or 'ifndef' statement."
  | MEndif => B "'endif' statement without an open 'if', 'ifdef' or 'ifndef' statement."
  | MForNested => B "'foreach' statements can't be nested."
  | MEndforeach => B "'endforeach' statement without an open 'foreach' statement."
  | MStmtType => B "Invalid statement type: Allowed types are: 'block', 'endblock', 'if', 'ifdef', 'ifndef', 'else', 'endif', 'foreach' and 'endforeach'."
  | MBlockLower => B "Invalid block syntax. Must begin with lowercase letter."
  | MBlockType => B "Invalid block type. Allowed types are: 'entry', 'listing', 'listing_once', 'listing_empty' and 'listing_entry'."
  | MVarUpper => B "Invalid variable name. Must begin with uppercase letter."
  | MVarChar => B "Invalid variable name. Must be uppercase letter, number or '_'."
  | MOperand => B "Invalid 'if' operand. Must be double-quoted static string or variable."
  | MForUpper => B "Invalid foreach variable name. Must begin with uppercase letter."
  | MForChar => B "Invalid foreach variable name. Must be uppercase letter, number or '_'."
  | MDupCleanAfter => B "Invalid statement syntax. Duplicated whitespace cleaner after statement."
  | MEndPct => B "Invalid statement syntax. Must end with '%}'."
  | MEndVar => B "Invalid statement syntax. Must end with '}}'."
  | MOperator => B "Invalid 'if' operator. Must be '<', '>', '<=', '>=', '==' or '!='."
  | MEndBrace => B "Invalid statement syntax. Must end with '}'."
  | MString => B "Found an open double-quoted string."
  | MIfs n => num n ++ B " open 'if', 'ifdef' and/or 'ifndef' statements were not closed!"
  | MBlockOpen => B "An open block was not closed!"
  | MForeachOpen => B "An open 'foreach' statement was not closed!"
  end.
Definition tp_err (s : bytes) : option bytes :=
  match template_parse s with
  | Ok (Datatypes.inr e) => Some match te_at e with Some p => near s p (tmsg_text (te_msg e)) | None => tmsg_text (te_msg e) end
  | _ => None
  end.
(* datetime-parser.c: the texts of the messages *)
Definition digit_of (hi : bytes) (what : bytes) (c : ascii) : bytes :=
  B "Invalid " ++ what ++ B ". Found '" ++ [c] ++ B "', must be integer >= 0 and <= " ++ hi ++ B ".".
Definition separator_of (what : bytes) (c : ascii) (sep : bytes) : bytes :=
  B "Invalid separator between " ++ what ++ B ". Found '" ++ [c] ++ B "', must be '" ++ sep ++ B "'.".
Definition znum (z : Z) : bytes := if (z <? 0)%Z then B "-" ++ B (NilEmpty.string_of_int (Z.to_int (- z))) else B (NilEmpty.string_of_int (Z.to_int z)).
Definition dt_text (orig format : bytes) (e : derror) : bytes :=
  match e with
  | BadByte st c =>
      match st with
      | Y1 => digit_of (B "9") (B "first digit of year") c
      | Y2 => digit_of (B "9") (B "second digit of year") c
      | Y3 => digit_of (B "9") (B "third digit of year") c
      | Y4 => digit_of (B "9") (B "fourth digit of year") c
      | Hy1 => separator_of (B "year and month") c (B "-")
      | Mo1 => digit_of (B "1") (B "first digit of month") c
      | Mo2 => digit_of (B "9") (B "second digit of month") c
      | Hy2 => separator_of (B "month and day") c (B "-")
      | Da1 => digit_of (B "3") (B "first digit of day") c
      | Da2 => digit_of (B "9") (B "second digit of day") c
      | Spc => B "Invalid separator between date and time. Found '" ++ [c] ++ B "', must be ' ' (empty space)."
      | Ho1 => digit_of (B "2") (B "first digit of hours") c
      | Ho2 => digit_of (B "9") (B "second digit of hours") c
      | Co1 => separator_of (B "hours and minutes") c (B ":")
      | Mi1 => digit_of (B "5") (B "first digit of minutes") c
      | Mi2 => digit_of (B "9") (B "second digit of minutes") c
      | Co2 => separator_of (B "minutes and seconds") c (B ":")
      | Se1 => digit_of (B "6") (B "first digit of seconds") c
      | Se2 => digit_of (B "9") (B "second digit of seconds") c
      | _ => []
      end
  | BadNumber st n =>
      match st with
      | Y4 => B "Invalid year. Found " ++ znum n ++ B ", must be >= 1900."
      | Mo2 => B "Invalid month. Found " ++ znum n ++ B ", must be >= 1 and <= 12."
      | Da2 => B "Invalid day. Found " ++ znum n ++ B ", must be >= 1 and <= 31."
      | Ho2 => B "Invalid hours. Found " ++ znum n ++ B ", must be >= 0 and <= 23."
      | Mi2 => B "Invalid minutes. Found " ++ znum n ++ B ", must be >= 0 and <= 59."
      | Se2 => B "Invalid seconds. Found " ++ znum n ++ B ", must be >= 0 and <= 60."
      | _ => []
      end
  | TooShort => B "Invalid datetime string. Found '" ++ orig ++ B "', formats allowed are: 'yyyy-mm-dd hh:mm:ss', 'yyyy-mm-dd hh:ss', 'yyyy-mm-dd hh' and 'yyyy-mm-dd'."
  | FormatTooLong => B "Failed to format DATE variable, FORMAT is too long: " ++ format
  end.
Definition dt_ok (r : bytes + derror) : option bytes := match r with Datatypes.inl x => Some x | _ => None end.
Definition dt_err (orig format : bytes) (r : bytes + derror) : option bytes := match r with Datatypes.inr e => Some (dt_text orig format e) | _ => None end.
(* strftime in the C locale, for the conversions the tests use, in a buffer of 1024 bytes *)
Definition two (n : Z) : bytes := let t := znum n in if (n <? 10)%Z then B "0" ++ t else t.
(* seconds since 1970, UTC *)
Definition epoch (t : tm) : Z :=
  (let y := tm_year t + 1900 - (if tm_mon t <? 2 then 1 else 0) in
   let m := (tm_mon t + 10) mod 12 in
   let days := 365 * y + y / 4 - y / 100 + y / 400 + (153 * m + 2) / 5 + tm_mday t - 1 - 719468 in
   ((days * 24 + tm_hour t) * 60 + tm_min t) * 60 + tm_sec t)%Z.
Fixpoint strftime_go (f : bytes) (t : tm) : bytes :=
  match f with
  | [] => []
  | p :: r =>
      if p == "%"%char then
        match r with
        | c :: r => (if c == "b"%char then nth (Z.to_nat (tm_mon t)) [B "Jan"; B "Feb"; B "Mar"; B "Apr"; B "May"; B "Jun"; B "Jul"; B "Aug"; B "Sep"; B "Oct"; B "Nov"; B "Dec"] []
                     else if c == "d"%char then two (tm_mday t)
                     else if c == "Y"%char then znum (tm_year t + 1900)
                     else if c == "I"%char then two (if (tm_hour t mod 12 =? 0)%Z then 12 else tm_hour t mod 12)
                     else if c == "M"%char then two (tm_min t)
                     else if c == "S"%char then two (tm_sec t)
                     else if c == "s"%char then znum (epoch t)
                     else if c == "p"%char then (if (tm_hour t <? 12)%Z then B "AM" else B "PM")
                     else [c]) ++ strftime_go r t
        | [] => []
        end
      else p :: strftime_go r t
  end.
Definition strftime_c (f : bytes) (t : tm) : option bytes :=
  let out := strftime_go f t in
  if (Z.of_nat (length out) <? 1024)%Z then match out with [] => None | _ => Some out end else None.

(* ---------- tests/blogc/check_template_parser.c ---------- *)

Definition test_template_parse_text1 : bytes := B "Test

    {%- block entry -%}
{% ifdef CHUNDA %}
bola
{% endif %}
{% ifndef BOLA %}
bolao
{%- endif %}
{% endblock %}
{% block listing %}{{ BOLA }}{% endblock %}
{% block listing_once %}asd{% endblock %}
{%- foreach BOLA %}hahaha{% endforeach %}
{% if BOLA == ""1\""0"" %}aee{% else %}fffuuuuuuu{% endif %}
{% block listing_entry %}lol{% endblock %}
{% block listing_empty %}empty{% endblock %}".
Example test_template_parse_1 :
  isnone (tp_err test_template_parse_text1) = true /\
  Nat.leb (length (tp_of test_template_parse_text1)) 0 = false /\
  node_at (tp_of test_template_parse_text1) 0 = Some (TContent, Some (B "Test")) /\
  node_at (tp_of test_template_parse_text1) 1 = Some (TBlock, Some (B "entry")) /\
  node_at (tp_of test_template_parse_text1) 2 = Some (TContent, Some []) /\
  node_at (tp_of test_template_parse_text1) 3 = Some (TIfdef, Some (B "CHUNDA")) /\
  node_at (tp_of test_template_parse_text1) 4 = Some (TContent, Some (B "
bola
")) /\
  node_at (tp_of test_template_parse_text1) 5 = Some (TEndif, None) /\
  node_at (tp_of test_template_parse_text1) 6 = Some (TContent, Some (B "
")) /\
  node_at (tp_of test_template_parse_text1) 7 = Some (TIfndef, Some (B "BOLA")) /\
  node_at (tp_of test_template_parse_text1) 8 = Some (TContent, Some (B "
bolao")) /\
  node_at (tp_of test_template_parse_text1) 9 = Some (TEndif, None) /\
  node_at (tp_of test_template_parse_text1) 10 = Some (TContent, Some (B "
")) /\
  node_at (tp_of test_template_parse_text1) 11 = Some (TEndblock, None) /\
  node_at (tp_of test_template_parse_text1) 12 = Some (TContent, Some (B "
")) /\
  node_at (tp_of test_template_parse_text1) 13 = Some (TBlock, Some (B "listing")) /\
  node_at (tp_of test_template_parse_text1) 14 = Some (TVariable, Some (B "BOLA")) /\
  node_at (tp_of test_template_parse_text1) 15 = Some (TEndblock, None) /\
  node_at (tp_of test_template_parse_text1) 16 = Some (TContent, Some (B "
")) /\
  node_at (tp_of test_template_parse_text1) 17 = Some (TBlock, Some (B "listing_once")) /\
  node_at (tp_of test_template_parse_text1) 18 = Some (TContent, Some (B "asd")) /\
  node_at (tp_of test_template_parse_text1) 19 = Some (TEndblock, None) /\
  node_at (tp_of test_template_parse_text1) 20 = Some (TContent, Some []) /\
  node_at (tp_of test_template_parse_text1) 21 = Some (TForeach, Some (B "BOLA")).
Proof. tests. Qed.

Example test_template_parse_2 :
  node_at (tp_of test_template_parse_text1) 22 = Some (TContent, Some (B "hahaha")) /\
  node_at (tp_of test_template_parse_text1) 23 = Some (TEndforeach, None) /\
  node_at (tp_of test_template_parse_text1) 24 = Some (TContent, Some (B "
")) /\
  if_at (tp_of test_template_parse_text1) 25 = Some (Some (B "BOLA"), OEq, Some (B """1\""0""")) /\
  node_at (tp_of test_template_parse_text1) 26 = Some (TContent, Some (B "aee")) /\
  node_at (tp_of test_template_parse_text1) 27 = Some (TElse, None) /\
  node_at (tp_of test_template_parse_text1) 28 = Some (TContent, Some (B "fffuuuuuuu")) /\
  node_at (tp_of test_template_parse_text1) 29 = Some (TEndif, None) /\
  node_at (tp_of test_template_parse_text1) 30 = Some (TContent, Some (B "
")) /\
  node_at (tp_of test_template_parse_text1) 31 = Some (TBlock, Some (B "listing_entry")) /\
  node_at (tp_of test_template_parse_text1) 32 = Some (TContent, Some (B "lol")) /\
  node_at (tp_of test_template_parse_text1) 33 = Some (TEndblock, None) /\
  node_at (tp_of test_template_parse_text1) 34 = Some (TContent, Some (B "
")) /\
  node_at (tp_of test_template_parse_text1) 35 = Some (TBlock, Some (B "listing_empty")) /\
  node_at (tp_of test_template_parse_text1) 36 = Some (TContent, Some (B "empty")) /\
  node_at (tp_of test_template_parse_text1) 37 = Some (TEndblock, None) /\
  Nat.leb (length (tp_of test_template_parse_text1)) 38 = true.
Proof. tests. Qed.

Definition test_template_parse_crlf_text1 : bytes := B "Test" ++ [CR] ++ B "
" ++ [CR] ++ B "
    {%- block entry -%}" ++ [CR] ++ B "
{% ifdef CHUNDA %}" ++ [CR] ++ B "
bola" ++ [CR] ++ B "
{% endif %}" ++ [CR] ++ B "
{% ifndef BOLA %}" ++ [CR] ++ B "
bolao" ++ [CR] ++ B "
{%- endif %}" ++ [CR] ++ B "
{% endblock %}" ++ [CR] ++ B "
{% block listing %}{{ BOLA }}{% endblock %}" ++ [CR] ++ B "
{% block listing_once %}asd{% endblock %}" ++ [CR] ++ B "
{%- foreach BOLA %}hahaha{% endforeach %}" ++ [CR] ++ B "
{% if BOLA == ""1\""0"" %}aee{% else %}fffuuuuuuu{% endif %}".
Example test_template_parse_crlf_1 :
  isnone (tp_err test_template_parse_crlf_text1) = true /\
  Nat.leb (length (tp_of test_template_parse_crlf_text1)) 0 = false /\
  node_at (tp_of test_template_parse_crlf_text1) 0 = Some (TContent, Some (B "Test")) /\
  node_at (tp_of test_template_parse_crlf_text1) 1 = Some (TBlock, Some (B "entry")) /\
  node_at (tp_of test_template_parse_crlf_text1) 2 = Some (TContent, Some []) /\
  node_at (tp_of test_template_parse_crlf_text1) 3 = Some (TIfdef, Some (B "CHUNDA")) /\
  node_at (tp_of test_template_parse_crlf_text1) 4 = Some (TContent, Some ([CR] ++ B "
bola" ++ [CR] ++ B "
")) /\
  node_at (tp_of test_template_parse_crlf_text1) 5 = Some (TEndif, None) /\
  node_at (tp_of test_template_parse_crlf_text1) 6 = Some (TContent, Some ([CR] ++ B "
")) /\
  node_at (tp_of test_template_parse_crlf_text1) 7 = Some (TIfndef, Some (B "BOLA")) /\
  node_at (tp_of test_template_parse_crlf_text1) 8 = Some (TContent, Some ([CR] ++ B "
bolao")) /\
  node_at (tp_of test_template_parse_crlf_text1) 9 = Some (TEndif, None) /\
  node_at (tp_of test_template_parse_crlf_text1) 10 = Some (TContent, Some ([CR] ++ B "
")) /\
  node_at (tp_of test_template_parse_crlf_text1) 11 = Some (TEndblock, None) /\
  node_at (tp_of test_template_parse_crlf_text1) 12 = Some (TContent, Some ([CR] ++ B "
")) /\
  node_at (tp_of test_template_parse_crlf_text1) 13 = Some (TBlock, Some (B "listing")) /\
  node_at (tp_of test_template_parse_crlf_text1) 14 = Some (TVariable, Some (B "BOLA")) /\
  node_at (tp_of test_template_parse_crlf_text1) 15 = Some (TEndblock, None) /\
  node_at (tp_of test_template_parse_crlf_text1) 16 = Some (TContent, Some ([CR] ++ B "
")) /\
  node_at (tp_of test_template_parse_crlf_text1) 17 = Some (TBlock, Some (B "listing_once")) /\
  node_at (tp_of test_template_parse_crlf_text1) 18 = Some (TContent, Some (B "asd")) /\
  node_at (tp_of test_template_parse_crlf_text1) 19 = Some (TEndblock, None) /\
  node_at (tp_of test_template_parse_crlf_text1) 20 = Some (TContent, Some []) /\
  node_at (tp_of test_template_parse_crlf_text1) 21 = Some (TForeach, Some (B "BOLA")).
Proof. tests. Qed.

Example test_template_parse_crlf_2 :
  node_at (tp_of test_template_parse_crlf_text1) 22 = Some (TContent, Some (B "hahaha")) /\
  node_at (tp_of test_template_parse_crlf_text1) 23 = Some (TEndforeach, None) /\
  node_at (tp_of test_template_parse_crlf_text1) 24 = Some (TContent, Some ([CR] ++ B "
")) /\
  if_at (tp_of test_template_parse_crlf_text1) 25 = Some (Some (B "BOLA"), OEq, Some (B """1\""0""")) /\
  node_at (tp_of test_template_parse_crlf_text1) 26 = Some (TContent, Some (B "aee")) /\
  node_at (tp_of test_template_parse_crlf_text1) 27 = Some (TElse, None) /\
  node_at (tp_of test_template_parse_crlf_text1) 28 = Some (TContent, Some (B "fffuuuuuuu")) /\
  node_at (tp_of test_template_parse_crlf_text1) 29 = Some (TEndif, None) /\
  Nat.leb (length (tp_of test_template_parse_crlf_text1)) 30 = true.
Proof. tests. Qed.

Definition test_template_parse_html_text1 : bytes := B "<html>
    <head>
        {% block entry %}
        <title>My cool blog >> {{ TITLE }}</title>
        {% endblock %}
        {% block listing_once %}
        <title>My cool blog - Main page</title>
        {% endblock %}
    </head>
    <body>
        <h1>My cool blog</h1>
        {% block entry %}
        <h2>{{ TITLE }}</h2>
        {% ifdef DATE %}<h4>Published in: {{ DATE }}</h4>{% endif %}
        <pre>{{ CONTENT }}</pre>
        {% endblock %}
        {% block listing_once %}<ul>{% endblock %}
        {% block listing %}<p><a href=""{{ FILENAME }}.html"">{{ TITLE }}</a>{% ifdef DATE %} - {{ DATE }}{% endif %}</p>{% endblock %}
        {% block listing_once %}</ul>{% endblock %}
    </body>
</html>
".
Example test_template_parse_html_1 :
  isnone (tp_err test_template_parse_html_text1) = true /\
  Nat.leb (length (tp_of test_template_parse_html_text1)) 0 = false /\
  node_at (tp_of test_template_parse_html_text1) 0 = Some (TContent, Some (B "<html>
    <head>
        ")) /\
  node_at (tp_of test_template_parse_html_text1) 1 = Some (TBlock, Some (B "entry")) /\
  node_at (tp_of test_template_parse_html_text1) 2 = Some (TContent, Some (B "
        <title>My cool blog >> ")) /\
  node_at (tp_of test_template_parse_html_text1) 3 = Some (TVariable, Some (B "TITLE")) /\
  node_at (tp_of test_template_parse_html_text1) 4 = Some (TContent, Some (B "</title>
        ")) /\
  node_at (tp_of test_template_parse_html_text1) 5 = Some (TEndblock, None) /\
  node_at (tp_of test_template_parse_html_text1) 6 = Some (TContent, Some (B "
        ")) /\
  node_at (tp_of test_template_parse_html_text1) 7 = Some (TBlock, Some (B "listing_once")) /\
  node_at (tp_of test_template_parse_html_text1) 8 = Some (TContent, Some (B "
        <title>My cool blog - Main page</title>
        ")) /\
  node_at (tp_of test_template_parse_html_text1) 9 = Some (TEndblock, None) /\
  node_at (tp_of test_template_parse_html_text1) 10 = Some (TContent, Some (B "
    </head>
    <body>
        <h1>My cool blog</h1>
        ")) /\
  node_at (tp_of test_template_parse_html_text1) 11 = Some (TBlock, Some (B "entry")) /\
  node_at (tp_of test_template_parse_html_text1) 12 = Some (TContent, Some (B "
        <h2>")) /\
  node_at (tp_of test_template_parse_html_text1) 13 = Some (TVariable, Some (B "TITLE")) /\
  node_at (tp_of test_template_parse_html_text1) 14 = Some (TContent, Some (B "</h2>
        ")) /\
  node_at (tp_of test_template_parse_html_text1) 15 = Some (TIfdef, Some (B "DATE")) /\
  node_at (tp_of test_template_parse_html_text1) 16 = Some (TContent, Some (B "<h4>Published in: ")) /\
  node_at (tp_of test_template_parse_html_text1) 17 = Some (TVariable, Some (B "DATE")) /\
  node_at (tp_of test_template_parse_html_text1) 18 = Some (TContent, Some (B "</h4>")) /\
  node_at (tp_of test_template_parse_html_text1) 19 = Some (TEndif, None) /\
  node_at (tp_of test_template_parse_html_text1) 20 = Some (TContent, Some (B "
        <pre>")) /\
  node_at (tp_of test_template_parse_html_text1) 21 = Some (TVariable, Some (B "CONTENT")).
Proof. tests. Qed.

Example test_template_parse_html_2 :
  node_at (tp_of test_template_parse_html_text1) 22 = Some (TContent, Some (B "</pre>
        ")) /\
  node_at (tp_of test_template_parse_html_text1) 23 = Some (TEndblock, None) /\
  node_at (tp_of test_template_parse_html_text1) 24 = Some (TContent, Some (B "
        ")) /\
  node_at (tp_of test_template_parse_html_text1) 25 = Some (TBlock, Some (B "listing_once")) /\
  node_at (tp_of test_template_parse_html_text1) 26 = Some (TContent, Some (B "<ul>")) /\
  node_at (tp_of test_template_parse_html_text1) 27 = Some (TEndblock, None) /\
  node_at (tp_of test_template_parse_html_text1) 28 = Some (TContent, Some (B "
        ")) /\
  node_at (tp_of test_template_parse_html_text1) 29 = Some (TBlock, Some (B "listing")) /\
  node_at (tp_of test_template_parse_html_text1) 30 = Some (TContent, Some (B "<p><a href=""")) /\
  node_at (tp_of test_template_parse_html_text1) 31 = Some (TVariable, Some (B "FILENAME")) /\
  node_at (tp_of test_template_parse_html_text1) 32 = Some (TContent, Some (B ".html"">")) /\
  node_at (tp_of test_template_parse_html_text1) 33 = Some (TVariable, Some (B "TITLE")) /\
  node_at (tp_of test_template_parse_html_text1) 34 = Some (TContent, Some (B "</a>")) /\
  node_at (tp_of test_template_parse_html_text1) 35 = Some (TIfdef, Some (B "DATE")) /\
  node_at (tp_of test_template_parse_html_text1) 36 = Some (TContent, Some (B " - ")) /\
  node_at (tp_of test_template_parse_html_text1) 37 = Some (TVariable, Some (B "DATE")) /\
  node_at (tp_of test_template_parse_html_text1) 38 = Some (TEndif, None) /\
  node_at (tp_of test_template_parse_html_text1) 39 = Some (TContent, Some (B "</p>")) /\
  node_at (tp_of test_template_parse_html_text1) 40 = Some (TEndblock, None) /\
  node_at (tp_of test_template_parse_html_text1) 41 = Some (TContent, Some (B "
        ")) /\
  node_at (tp_of test_template_parse_html_text1) 42 = Some (TBlock, Some (B "listing_once")) /\
  node_at (tp_of test_template_parse_html_text1) 43 = Some (TContent, Some (B "</ul>")) /\
  node_at (tp_of test_template_parse_html_text1) 44 = Some (TEndblock, None) /\
  node_at (tp_of test_template_parse_html_text1) 45 = Some (TContent, Some (B "
    </body>
</html>
")).
Proof. tests. Qed.

Example test_template_parse_html_3 :
  Nat.leb (length (tp_of test_template_parse_html_text1)) 46 = true.
Proof. tests. Qed.

Definition test_template_parse_html_whitespace_text1 : bytes := B "<html>
    <head>
        {%
   block entry
%}
        <title>My cool blog >> {{ TITLE }}</title>
        {% " ++ ["011"%char] ++ B "endblock" ++ ["011"%char] ++ B " %}
        {% " ++ [CR] ++ B "
block listing_once
%}
        <title>My cool blog - Main page</title>
        {%" ++ [TAB] ++ B " endblock" ++ [TAB] ++ B "%}
    </head>
    <body>
        <h1>My cool blog</h1>
        {%" ++ [TAB] ++ [TAB] ++ [TAB] ++ B "block entry
%}
        <h2>{{" ++ [TAB] ++ B "TITLE
}}</h2>
        {%
ifdef DATE" ++ ["011"%char] ++ B "%}<h4>Published in: {{" ++ [TAB] ++ B "DATE" ++ [TAB] ++ B "}}</h4>{%" ++ ["012"%char] ++ B "endif" ++ ["012"%char] ++ B "%}
        <pre>{{" ++ [TAB] ++ B "CONTENT
}}</pre>
        {%

  
endblock" ++ ["012"%char] ++ ["012"%char] ++ B "
" ++ [TAB] ++ B "%}
        {%
block

listing_once" ++ [TAB] ++ B "%}<ul>{%" ++ [TAB] ++ B "endblock" ++ ["012"%char] ++ ["012"%char] ++ B "%}
        {%

block" ++ [TAB] ++ [TAB] ++ B "listing" ++ ["012"%char] ++ [TAB] ++ B "%}<p><a href=""{{" ++ [TAB] ++ ["012"%char] ++ B "FILENAME" ++ [TAB] ++ [TAB] ++ B "}}.html"">{{ TITLE }}</a>{%" ++ ["012"%char] ++ [TAB] ++ B "ifdef" ++ ["011"%char] ++ ["011"%char] ++ B "DATE" ++ ["012"%char] ++ B "%} - {{" ++ ["012"%char] ++ B "DATE" ++ ["012"%char] ++ B "}}{%" ++ [TAB] ++ B "endif" ++ ["012"%char] ++ B "%}</p>{%" ++ [TAB] ++ B "endblock" ++ [TAB] ++ B "%}
        {%" ++ [TAB] ++ B "block" ++ [TAB] ++ B "listing_once" ++ [TAB] ++ B "%}</ul>{%
endblock
%}
    </body>
</html>
".
Example test_template_parse_html_whitespace_1 :
  isnone (tp_err test_template_parse_html_whitespace_text1) = true /\
  Nat.leb (length (tp_of test_template_parse_html_whitespace_text1)) 0 = false /\
  node_at (tp_of test_template_parse_html_whitespace_text1) 0 = Some (TContent, Some (B "<html>
    <head>
        ")) /\
  node_at (tp_of test_template_parse_html_whitespace_text1) 1 = Some (TBlock, Some (B "entry")) /\
  node_at (tp_of test_template_parse_html_whitespace_text1) 2 = Some (TContent, Some (B "
        <title>My cool blog >> ")) /\
  node_at (tp_of test_template_parse_html_whitespace_text1) 3 = Some (TVariable, Some (B "TITLE")) /\
  node_at (tp_of test_template_parse_html_whitespace_text1) 4 = Some (TContent, Some (B "</title>
        ")) /\
  node_at (tp_of test_template_parse_html_whitespace_text1) 5 = Some (TEndblock, None) /\
  node_at (tp_of test_template_parse_html_whitespace_text1) 6 = Some (TContent, Some (B "
        ")) /\
  node_at (tp_of test_template_parse_html_whitespace_text1) 7 = Some (TBlock, Some (B "listing_once")) /\
  node_at (tp_of test_template_parse_html_whitespace_text1) 8 = Some (TContent, Some (B "
        <title>My cool blog - Main page</title>
        ")) /\
  node_at (tp_of test_template_parse_html_whitespace_text1) 9 = Some (TEndblock, None) /\
  node_at (tp_of test_template_parse_html_whitespace_text1) 10 = Some (TContent, Some (B "
    </head>
    <body>
        <h1>My cool blog</h1>
        ")) /\
  node_at (tp_of test_template_parse_html_whitespace_text1) 11 = Some (TBlock, Some (B "entry")) /\
  node_at (tp_of test_template_parse_html_whitespace_text1) 12 = Some (TContent, Some (B "
        <h2>")) /\
  node_at (tp_of test_template_parse_html_whitespace_text1) 13 = Some (TVariable, Some (B "TITLE")) /\
  node_at (tp_of test_template_parse_html_whitespace_text1) 14 = Some (TContent, Some (B "</h2>
        ")) /\
  node_at (tp_of test_template_parse_html_whitespace_text1) 15 = Some (TIfdef, Some (B "DATE")) /\
  node_at (tp_of test_template_parse_html_whitespace_text1) 16 = Some (TContent, Some (B "<h4>Published in: ")) /\
  node_at (tp_of test_template_parse_html_whitespace_text1) 17 = Some (TVariable, Some (B "DATE")) /\
  node_at (tp_of test_template_parse_html_whitespace_text1) 18 = Some (TContent, Some (B "</h4>")) /\
  node_at (tp_of test_template_parse_html_whitespace_text1) 19 = Some (TEndif, None) /\
  node_at (tp_of test_template_parse_html_whitespace_text1) 20 = Some (TContent, Some (B "
        <pre>")) /\
  node_at (tp_of test_template_parse_html_whitespace_text1) 21 = Some (TVariable, Some (B "CONTENT")).
Proof. tests. Qed.

Example test_template_parse_html_whitespace_2 :
  node_at (tp_of test_template_parse_html_whitespace_text1) 22 = Some (TContent, Some (B "</pre>
        ")) /\
  node_at (tp_of test_template_parse_html_whitespace_text1) 23 = Some (TEndblock, None) /\
  node_at (tp_of test_template_parse_html_whitespace_text1) 24 = Some (TContent, Some (B "
        ")) /\
  node_at (tp_of test_template_parse_html_whitespace_text1) 25 = Some (TBlock, Some (B "listing_once")) /\
  node_at (tp_of test_template_parse_html_whitespace_text1) 26 = Some (TContent, Some (B "<ul>")) /\
  node_at (tp_of test_template_parse_html_whitespace_text1) 27 = Some (TEndblock, None) /\
  node_at (tp_of test_template_parse_html_whitespace_text1) 28 = Some (TContent, Some (B "
        ")) /\
  node_at (tp_of test_template_parse_html_whitespace_text1) 29 = Some (TBlock, Some (B "listing")) /\
  node_at (tp_of test_template_parse_html_whitespace_text1) 30 = Some (TContent, Some (B "<p><a href=""")) /\
  node_at (tp_of test_template_parse_html_whitespace_text1) 31 = Some (TVariable, Some (B "FILENAME")) /\
  node_at (tp_of test_template_parse_html_whitespace_text1) 32 = Some (TContent, Some (B ".html"">")) /\
  node_at (tp_of test_template_parse_html_whitespace_text1) 33 = Some (TVariable, Some (B "TITLE")) /\
  node_at (tp_of test_template_parse_html_whitespace_text1) 34 = Some (TContent, Some (B "</a>")) /\
  node_at (tp_of test_template_parse_html_whitespace_text1) 35 = Some (TIfdef, Some (B "DATE")) /\
  node_at (tp_of test_template_parse_html_whitespace_text1) 36 = Some (TContent, Some (B " - ")) /\
  node_at (tp_of test_template_parse_html_whitespace_text1) 37 = Some (TVariable, Some (B "DATE")) /\
  node_at (tp_of test_template_parse_html_whitespace_text1) 38 = Some (TEndif, None) /\
  node_at (tp_of test_template_parse_html_whitespace_text1) 39 = Some (TContent, Some (B "</p>")) /\
  node_at (tp_of test_template_parse_html_whitespace_text1) 40 = Some (TEndblock, None) /\
  node_at (tp_of test_template_parse_html_whitespace_text1) 41 = Some (TContent, Some (B "
        ")) /\
  node_at (tp_of test_template_parse_html_whitespace_text1) 42 = Some (TBlock, Some (B "listing_once")) /\
  node_at (tp_of test_template_parse_html_whitespace_text1) 43 = Some (TContent, Some (B "</ul>")) /\
  node_at (tp_of test_template_parse_html_whitespace_text1) 44 = Some (TEndblock, None) /\
  node_at (tp_of test_template_parse_html_whitespace_text1) 45 = Some (TContent, Some (B "
    </body>
</html>
")).
Proof. tests. Qed.

Example test_template_parse_html_whitespace_3 :
  Nat.leb (length (tp_of test_template_parse_html_whitespace_text1)) 46 = true.
Proof. tests. Qed.

Definition test_template_parse_ifdef_and_var_outside_block_text1 : bytes := B "{% ifdef GUDA %}bola{% endif %}
{{ BOLA }}
{% ifndef CHUNDA %}{{ CHUNDA }}{% endif %}
".
Example test_template_parse_ifdef_and_var_outside_block :
  isnone (tp_err test_template_parse_ifdef_and_var_outside_block_text1) = true /\
  Nat.leb (length (tp_of test_template_parse_ifdef_and_var_outside_block_text1)) 0 = false /\
  node_at (tp_of test_template_parse_ifdef_and_var_outside_block_text1) 0 = Some (TIfdef, Some (B "GUDA")) /\
  node_at (tp_of test_template_parse_ifdef_and_var_outside_block_text1) 1 = Some (TContent, Some (B "bola")) /\
  node_at (tp_of test_template_parse_ifdef_and_var_outside_block_text1) 2 = Some (TEndif, None) /\
  node_at (tp_of test_template_parse_ifdef_and_var_outside_block_text1) 3 = Some (TContent, Some (B "
")) /\
  node_at (tp_of test_template_parse_ifdef_and_var_outside_block_text1) 4 = Some (TVariable, Some (B "BOLA")) /\
  node_at (tp_of test_template_parse_ifdef_and_var_outside_block_text1) 5 = Some (TContent, Some (B "
")) /\
  node_at (tp_of test_template_parse_ifdef_and_var_outside_block_text1) 6 = Some (TIfndef, Some (B "CHUNDA")) /\
  node_at (tp_of test_template_parse_ifdef_and_var_outside_block_text1) 7 = Some (TVariable, Some (B "CHUNDA")) /\
  node_at (tp_of test_template_parse_ifdef_and_var_outside_block_text1) 8 = Some (TEndif, None) /\
  node_at (tp_of test_template_parse_ifdef_and_var_outside_block_text1) 9 = Some (TContent, Some (B "
")) /\
  Nat.leb (length (tp_of test_template_parse_ifdef_and_var_outside_block_text1)) 10 = true.
Proof. tests. Qed.

Definition test_template_parse_nested_else_text1 : bytes := B "{% ifdef GUDA %}
{% ifdef BOLA %}
asd
{% else %}
{% ifdef CHUNDA %}
qwe
{% else %}
rty
{% endif %}
{% endif %}
{% ifdef LOL %}
zxc
{% else %}
bnm
{% endif %}
{% endif %}
".
Example test_template_parse_nested_else_1 :
  isnone (tp_err test_template_parse_nested_else_text1) = true /\
  Nat.leb (length (tp_of test_template_parse_nested_else_text1)) 0 = false /\
  node_at (tp_of test_template_parse_nested_else_text1) 0 = Some (TIfdef, Some (B "GUDA")) /\
  node_at (tp_of test_template_parse_nested_else_text1) 1 = Some (TContent, Some (B "
")) /\
  node_at (tp_of test_template_parse_nested_else_text1) 2 = Some (TIfdef, Some (B "BOLA")) /\
  node_at (tp_of test_template_parse_nested_else_text1) 3 = Some (TContent, Some (B "
asd
")) /\
  node_at (tp_of test_template_parse_nested_else_text1) 4 = Some (TElse, None) /\
  node_at (tp_of test_template_parse_nested_else_text1) 5 = Some (TContent, Some (B "
")) /\
  node_at (tp_of test_template_parse_nested_else_text1) 6 = Some (TIfdef, Some (B "CHUNDA")) /\
  node_at (tp_of test_template_parse_nested_else_text1) 7 = Some (TContent, Some (B "
qwe
")) /\
  node_at (tp_of test_template_parse_nested_else_text1) 8 = Some (TElse, None) /\
  node_at (tp_of test_template_parse_nested_else_text1) 9 = Some (TContent, Some (B "
rty
")) /\
  node_at (tp_of test_template_parse_nested_else_text1) 10 = Some (TEndif, None) /\
  node_at (tp_of test_template_parse_nested_else_text1) 11 = Some (TContent, Some (B "
")) /\
  node_at (tp_of test_template_parse_nested_else_text1) 12 = Some (TEndif, None) /\
  node_at (tp_of test_template_parse_nested_else_text1) 13 = Some (TContent, Some (B "
")) /\
  node_at (tp_of test_template_parse_nested_else_text1) 14 = Some (TIfdef, Some (B "LOL")) /\
  node_at (tp_of test_template_parse_nested_else_text1) 15 = Some (TContent, Some (B "
zxc
")) /\
  node_at (tp_of test_template_parse_nested_else_text1) 16 = Some (TElse, None) /\
  node_at (tp_of test_template_parse_nested_else_text1) 17 = Some (TContent, Some (B "
bnm
")) /\
  node_at (tp_of test_template_parse_nested_else_text1) 18 = Some (TEndif, None) /\
  node_at (tp_of test_template_parse_nested_else_text1) 19 = Some (TContent, Some (B "
")) /\
  node_at (tp_of test_template_parse_nested_else_text1) 20 = Some (TEndif, None) /\
  node_at (tp_of test_template_parse_nested_else_text1) 21 = Some (TContent, Some (B "
")).
Proof. tests. Qed.

Example test_template_parse_nested_else_2 :
  Nat.leb (length (tp_of test_template_parse_nested_else_text1)) 22 = true.
Proof. tests. Qed.

Example test_template_parse_invalid_block_start :
  isnone (tp_err (B "{% ASD %}
")) = false /\
  Nat.leb (length (tp_of (B "{% ASD %}
"))) 0 = true /\
  tp_err (B "{% ASD %}
") = Some (B "Invalid statement syntax. Must begin with lowercase letter.
Error occurred near line 1, position 4: {% ASD %}") /\
  isnone (tp_err (B "{%-- block entry %}
")) = false /\
  Nat.leb (length (tp_of (B "{%-- block entry %}
"))) 0 = true /\
  tp_err (B "{%-- block entry %}
") = Some (B "Invalid statement syntax. Duplicated whitespace cleaner before statement.
Error occurred near line 1, position 4: {%-- block entry %}") /\
  isnone (tp_err (B "{% block entry --%}
")) = false /\
  Nat.leb (length (tp_of (B "{% block entry --%}
"))) 0 = true /\
  tp_err (B "{% block entry --%}
") = Some (B "Invalid statement syntax. Duplicated whitespace cleaner after statement.
Error occurred near line 1, position 17: {% block entry --%}").
Proof. tests. Qed.

Example test_template_parse_invalid_block_nested :
  isnone (tp_err (B "{% block entry %}
{% block listing %}
")) = false /\
  Nat.leb (length (tp_of (B "{% block entry %}
{% block listing %}
"))) 0 = true /\
  tp_err (B "{% block entry %}
{% block listing %}
") = Some (B "Blocks can't be nested.
Error occurred near line 2, position 9: {% block listing %}").
Proof. tests. Qed.

Example test_template_parse_invalid_foreach_nested :
  isnone (tp_err (B "{% foreach A %}
{% foreach B %}
")) = false /\
  Nat.leb (length (tp_of (B "{% foreach A %}
{% foreach B %}
"))) 0 = true /\
  tp_err (B "{% foreach A %}
{% foreach B %}
") = Some (B "'foreach' statements can't be nested.
Error occurred near line 2, position 11: {% foreach B %}").
Proof. tests. Qed.

Example test_template_parse_invalid_block_not_open :
  isnone (tp_err (B "{% endblock %}
")) = false /\
  Nat.leb (length (tp_of (B "{% endblock %}
"))) 0 = true /\
  tp_err (B "{% endblock %}
") = Some (B "'endblock' statement without an open 'block' statement.
Error occurred near line 1, position 12: {% endblock %}").
Proof. tests. Qed.

Definition test_template_parse_invalid_endif_not_open_text1 : bytes := B "{% block listing %}{% endif %}{% endblock %}
".
Example test_template_parse_invalid_endif_not_open :
  isnone (tp_err test_template_parse_invalid_endif_not_open_text1) = false /\
  Nat.leb (length (tp_of test_template_parse_invalid_endif_not_open_text1)) 0 = true /\
  tp_err test_template_parse_invalid_endif_not_open_text1 = Some (B "'endif' statement without an open 'if', 'ifdef' or 'ifndef' statement.
Error occurred near line 1, position 28: {% block listing %}{% endif %}{% endblock %}").
Proof. tests. Qed.

Definition test_template_parse_invalid_endif_not_open_inside_block_text1 : bytes := B "{% ifdef BOLA %}{% block listing %}{% endif %}{% endblock %}".
Example test_template_parse_invalid_endif_not_open_inside_block :
  isnone (tp_err test_template_parse_invalid_endif_not_open_inside_block_text1) = false /\
  Nat.leb (length (tp_of test_template_parse_invalid_endif_not_open_inside_block_text1)) 0 = true /\
  tp_err test_template_parse_invalid_endif_not_open_inside_block_text1 = Some (B "'endif' statement without an open 'if', 'ifdef' or 'ifndef' statement.
Error occurred near line 1, position 44: {% ifdef BOLA %}{% block listing %}{% endif %}{% endblock %}").
Proof. tests. Qed.

Definition test_template_parse_invalid_else_not_open_inside_block_text1 : bytes := B "{% ifdef BOLA %}{% block listing %}{% else %}{% endif %}{% endblock %}".
Example test_template_parse_invalid_else_not_open_inside_block :
  isnone (tp_err test_template_parse_invalid_else_not_open_inside_block_text1) = false /\
  Nat.leb (length (tp_of test_template_parse_invalid_else_not_open_inside_block_text1)) 0 = true /\
  tp_err test_template_parse_invalid_else_not_open_inside_block_text1 = Some (B "'else' statement without an open 'if', 'ifdef' or 'ifndef' statement.
Error occurred near line 1, position 43: {% ifdef BOLA %}{% block listing %}{% else %}{% endif %}{% endblock %}").
Proof. tests. Qed.

Example test_template_parse_invalid_endforeach_not_open :
  isnone (tp_err (B "{% endforeach %}
")) = false /\
  Nat.leb (length (tp_of (B "{% endforeach %}
"))) 0 = true /\
  tp_err (B "{% endforeach %}
") = Some (B "'endforeach' statement without an open 'foreach' statement.
Error occurred near line 1, position 14: {% endforeach %}").
Proof. tests. Qed.

Definition test_template_parse_invalid_endforeach_not_open_inside_block_text1 : bytes := B "{% foreach TAGS %}{% block entry %}{% endforeach %}{% endblock %}
".
Example test_template_parse_invalid_endforeach_not_open_inside_block :
  isnone (tp_err test_template_parse_invalid_endforeach_not_open_inside_block_text1) = false /\
  Nat.leb (length (tp_of test_template_parse_invalid_endforeach_not_open_inside_block_text1)) 0 = true /\
  tp_err test_template_parse_invalid_endforeach_not_open_inside_block_text1 = Some (B "'endforeach' statement without an open 'foreach' statement.
Error occurred near line 1, position 49: {% foreach TAGS %}{% block entry %}{% endforeach %}{% endblock %}").
Proof. tests. Qed.

Definition test_template_parse_invalid_endforeach_not_open_inside_block2_text1 : bytes := B "{% block entry %}{% foreach TAGS %}{% endforeach %}{% endforeach %}{% endblock %}
".
Example test_template_parse_invalid_endforeach_not_open_inside_block2 :
  isnone (tp_err test_template_parse_invalid_endforeach_not_open_inside_block2_text1) = false /\
  Nat.leb (length (tp_of test_template_parse_invalid_endforeach_not_open_inside_block2_text1)) 0 = true /\
  tp_err test_template_parse_invalid_endforeach_not_open_inside_block2_text1 = Some (B "'endforeach' statement without an open 'foreach' statement.
Error occurred near line 1, position 65: {% block entry %}{% foreach TAGS %}{% endforeach %}{% endforeach %}{% endblock %}").
Proof. tests. Qed.

Definition test_template_parse_invalid_endforeach_not_closed_inside_block_text1 : bytes := B "{% block entry %}{% foreach TAGS %}{% endblock %}{% endforeach %}
".
Example test_template_parse_invalid_endforeach_not_closed_inside_block :
  isnone (tp_err test_template_parse_invalid_endforeach_not_closed_inside_block_text1) = false /\
  Nat.leb (length (tp_of test_template_parse_invalid_endforeach_not_closed_inside_block_text1)) 0 = true /\
  tp_err test_template_parse_invalid_endforeach_not_closed_inside_block_text1 = Some (B "An open 'foreach' statement was not closed inside a 'entry' block!").
Proof. tests. Qed.

Definition test_template_parse_invalid_endforeach_not_closed_inside_block2_text1 : bytes := B "{% block entry %}{% foreach TAGS %}{% endforeach %}{% foreach TAGS %}{% endblock %}{% endforeach %}
".
Example test_template_parse_invalid_endforeach_not_closed_inside_block2 :
  isnone (tp_err test_template_parse_invalid_endforeach_not_closed_inside_block2_text1) = false /\
  Nat.leb (length (tp_of test_template_parse_invalid_endforeach_not_closed_inside_block2_text1)) 0 = true /\
  tp_err test_template_parse_invalid_endforeach_not_closed_inside_block2_text1 = Some (B "An open 'foreach' statement was not closed inside a 'entry' block!").
Proof. tests. Qed.

Example test_template_parse_invalid_block_name :
  isnone (tp_err (B "{% chunda %}
")) = false /\
  Nat.leb (length (tp_of (B "{% chunda %}
"))) 0 = true /\
  tp_err (B "{% chunda %}
") = Some (B "Invalid statement type: Allowed types are: 'block', 'endblock', 'if', 'ifdef', 'ifndef', 'else', 'endif', 'foreach' and 'endforeach'.
Error occurred near line 1, position 10: {% chunda %}").
Proof. tests. Qed.

Example test_template_parse_invalid_block_type_start :
  isnone (tp_err (B "{% block ENTRY %}
")) = false /\
  Nat.leb (length (tp_of (B "{% block ENTRY %}
"))) 0 = true /\
  tp_err (B "{% block ENTRY %}
") = Some (B "Invalid block syntax. Must begin with lowercase letter.
Error occurred near line 1, position 10: {% block ENTRY %}").
Proof. tests. Qed.

Example test_template_parse_invalid_block_type :
  isnone (tp_err (B "{% block chunda %}
")) = false /\
  Nat.leb (length (tp_of (B "{% block chunda %}
"))) 0 = true /\
  tp_err (B "{% block chunda %}
") = Some (B "Invalid block type. Allowed types are: 'entry', 'listing', 'listing_once', 'listing_empty' and 'listing_entry'.
Error occurred near line 1, position 16: {% block chunda %}").
Proof. tests. Qed.

Example test_template_parse_invalid_ifdef_start :
  isnone (tp_err (B "{% block entry %}{% ifdef guda %}
")) = false /\
  Nat.leb (length (tp_of (B "{% block entry %}{% ifdef guda %}
"))) 0 = true /\
  tp_err (B "{% block entry %}{% ifdef guda %}
") = Some (B "Invalid variable name. Must begin with uppercase letter.
Error occurred near line 1, position 27: {% block entry %}{% ifdef guda %}").
Proof. tests. Qed.

Example test_template_parse_invalid_foreach_start :
  isnone (tp_err (B "{% block entry %}{% foreach guda %}
")) = false /\
  Nat.leb (length (tp_of (B "{% block entry %}{% foreach guda %}
"))) 0 = true /\
  tp_err (B "{% block entry %}{% foreach guda %}
") = Some (B "Invalid foreach variable name. Must begin with uppercase letter.
Error occurred near line 1, position 29: {% block entry %}{% foreach guda %}").
Proof. tests. Qed.

Example test_template_parse_invalid_ifdef_variable :
  isnone (tp_err (B "{% block entry %}{% ifdef BoLA %}
")) = false /\
  Nat.leb (length (tp_of (B "{% block entry %}{% ifdef BoLA %}
"))) 0 = true /\
  tp_err (B "{% block entry %}{% ifdef BoLA %}
") = Some (B "Invalid variable name. Must be uppercase letter, number or '_'.
Error occurred near line 1, position 28: {% block entry %}{% ifdef BoLA %}").
Proof. tests. Qed.

Example test_template_parse_invalid_ifdef_variable2 :
  isnone (tp_err (B "{% block entry %}{% ifdef 0123 %}
")) = false /\
  Nat.leb (length (tp_of (B "{% block entry %}{% ifdef 0123 %}
"))) 0 = true /\
  tp_err (B "{% block entry %}{% ifdef 0123 %}
") = Some (B "Invalid variable name. Must begin with uppercase letter.
Error occurred near line 1, position 27: {% block entry %}{% ifdef 0123 %}").
Proof. tests. Qed.

Example test_template_parse_invalid_foreach_variable :
  isnone (tp_err (B "{% block entry %}{% foreach BoLA %}
")) = false /\
  Nat.leb (length (tp_of (B "{% block entry %}{% foreach BoLA %}
"))) 0 = true /\
  tp_err (B "{% block entry %}{% foreach BoLA %}
") = Some (B "Invalid foreach variable name. Must be uppercase letter, number or '_'.
Error occurred near line 1, position 30: {% block entry %}{% foreach BoLA %}").
Proof. tests. Qed.

Example test_template_parse_invalid_foreach_variable2 :
  isnone (tp_err (B "{% block entry %}{% foreach 0123 %}
")) = false /\
  Nat.leb (length (tp_of (B "{% block entry %}{% foreach 0123 %}
"))) 0 = true /\
  tp_err (B "{% block entry %}{% foreach 0123 %}
") = Some (B "Invalid foreach variable name. Must begin with uppercase letter.
Error occurred near line 1, position 29: {% block entry %}{% foreach 0123 %}").
Proof. tests. Qed.

Example test_template_parse_invalid_if_operator :
  isnone (tp_err (B "{% block entry %}{% if BOLA = ""asd"" %}
")) = false /\
  Nat.leb (length (tp_of (B "{% block entry %}{% if BOLA = ""asd"" %}
"))) 0 = true /\
  tp_err (B "{% block entry %}{% if BOLA = ""asd"" %}
") = Some (B "Invalid 'if' operator. Must be '<', '>', '<=', '>=', '==' or '!='.
Error occurred near line 1, position 29: {% block entry %}{% if BOLA = ""asd"" %}").
Proof. tests. Qed.

Example test_template_parse_invalid_if_operand :
  isnone (tp_err (B "{% block entry %}{% if BOLA == asd %}
")) = false /\
  Nat.leb (length (tp_of (B "{% block entry %}{% if BOLA == asd %}
"))) 0 = true /\
  tp_err (B "{% block entry %}{% if BOLA == asd %}
") = Some (B "Invalid 'if' operand. Must be double-quoted static string or variable.
Error occurred near line 1, position 32: {% block entry %}{% if BOLA == asd %}").
Proof. tests. Qed.

Example test_template_parse_invalid_if_operand2 :
  isnone (tp_err (B "{% block entry %}{% if BOLA == ""asd %}
")) = false /\
  Nat.leb (length (tp_of (B "{% block entry %}{% if BOLA == ""asd %}
"))) 0 = true /\
  tp_err (B "{% block entry %}{% if BOLA == ""asd %}
") = Some (B "Found an open double-quoted string.
Error occurred near line 1, position 32: {% block entry %}{% if BOLA == ""asd %}").
Proof. tests. Qed.

Example test_template_parse_invalid_if_operand3 :
  isnone (tp_err (B "{% block entry %}{% if BOLA == 0123 %}
")) = false /\
  Nat.leb (length (tp_of (B "{% block entry %}{% if BOLA == 0123 %}
"))) 0 = true /\
  tp_err (B "{% block entry %}{% if BOLA == 0123 %}
") = Some (B "Invalid 'if' operand. Must be double-quoted static string or variable.
Error occurred near line 1, position 32: {% block entry %}{% if BOLA == 0123 %}").
Proof. tests. Qed.

Example test_template_parse_invalid_else1 :
  isnone (tp_err (B "{% else %}
")) = false /\
  Nat.leb (length (tp_of (B "{% else %}
"))) 0 = true /\
  tp_err (B "{% else %}
") = Some (B "'else' statement without an open 'if', 'ifdef' or 'ifndef' statement.
Error occurred near line 1, position 8: {% else %}").
Proof. tests. Qed.

Definition test_template_parse_invalid_else2_text1 : bytes := B "{% if BOLA == ""123"" %}{% if GUDA == ""1"" %}{% else %}{% else %}
".
Example test_template_parse_invalid_else2 :
  isnone (tp_err test_template_parse_invalid_else2_text1) = false /\
  Nat.leb (length (tp_of test_template_parse_invalid_else2_text1)) 0 = true /\
  tp_err test_template_parse_invalid_else2_text1 = Some (B "More than one 'else' statement for an open 'if', 'ifdef' or 'ifndef' statement.
Error occurred near line 1, position 60: {% if BOLA == ""123"" %}{% if GUDA == ""1"" %}{% else %}{% else %}").
Proof. tests. Qed.

Definition test_template_parse_invalid_else3_text1 : bytes := B "{% if BOLA == ""123"" %}
{% if GUDA == ""1"" %}
{% else %}
asd
{% endif %}
{% else %}
{% else %}
".
Example test_template_parse_invalid_else3 :
  isnone (tp_err test_template_parse_invalid_else3_text1) = false /\
  Nat.leb (length (tp_of test_template_parse_invalid_else3_text1)) 0 = true /\
  tp_err test_template_parse_invalid_else3_text1 = Some (B "More than one 'else' statement for an open 'if', 'ifdef' or 'ifndef' statement.
Error occurred near line 7, position 8: {% else %}").
Proof. tests. Qed.

Example test_template_parse_invalid_block_end :
  isnone (tp_err (B "{% block entry }}
")) = false /\
  Nat.leb (length (tp_of (B "{% block entry }}
"))) 0 = true /\
  tp_err (B "{% block entry }}
") = Some (B "Invalid statement syntax. Must end with '%}'.
Error occurred near line 1, position 16: {% block entry }}").
Proof. tests. Qed.

Example test_template_parse_invalid_variable_name :
  isnone (tp_err (B "{% block entry %}{{ bola }}{% endblock %}
")) = false /\
  Nat.leb (length (tp_of (B "{% block entry %}{{ bola }}{% endblock %}
"))) 0 = true /\
  tp_err (B "{% block entry %}{{ bola }}{% endblock %}
") = Some (B "Invalid variable name. Must begin with uppercase letter.
Error occurred near line 1, position 21: {% block entry %}{{ bola }}{% endblock %}").
Proof. tests. Qed.

Example test_template_parse_invalid_variable_name2 :
  isnone (tp_err (B "{% block entry %}{{ Bola }}{% endblock %}
")) = false /\
  Nat.leb (length (tp_of (B "{% block entry %}{{ Bola }}{% endblock %}
"))) 0 = true /\
  tp_err (B "{% block entry %}{{ Bola }}{% endblock %}
") = Some (B "Invalid variable name. Must be uppercase letter, number or '_'.
Error occurred near line 1, position 22: {% block entry %}{{ Bola }}{% endblock %}").
Proof. tests. Qed.

Example test_template_parse_invalid_variable_name3 :
  isnone (tp_err (B "{% block entry %}{{ 0123 }}{% endblock %}
")) = false /\
  Nat.leb (length (tp_of (B "{% block entry %}{{ 0123 }}{% endblock %}
"))) 0 = true /\
  tp_err (B "{% block entry %}{{ 0123 }}{% endblock %}
") = Some (B "Invalid variable name. Must begin with uppercase letter.
Error occurred near line 1, position 21: {% block entry %}{{ 0123 }}{% endblock %}").
Proof. tests. Qed.

Example test_template_parse_invalid_variable_end :
  isnone (tp_err (B "{% block entry %}{{ BOLA %}{% endblock %}
")) = false /\
  Nat.leb (length (tp_of (B "{% block entry %}{{ BOLA %}{% endblock %}
"))) 0 = true /\
  tp_err (B "{% block entry %}{{ BOLA %}{% endblock %}
") = Some (B "Invalid statement syntax. Must end with '}}'.
Error occurred near line 1, position 26: {% block entry %}{{ BOLA %}{% endblock %}").
Proof. tests. Qed.

Example test_template_parse_invalid_close :
  isnone (tp_err (B "{% block entry %%
")) = false /\
  Nat.leb (length (tp_of (B "{% block entry %%
"))) 0 = true /\
  tp_err (B "{% block entry %%
") = Some (B "Invalid statement syntax. Must end with '}'.
Error occurred near line 1, position 17: {% block entry %%").
Proof. tests. Qed.

Example test_template_parse_invalid_close2 :
  isnone (tp_err (B "{% block entry %}{{ BOLA }%{% endblock %}
")) = false /\
  Nat.leb (length (tp_of (B "{% block entry %}{{ BOLA }%{% endblock %}
"))) 0 = true /\
  tp_err (B "{% block entry %}{{ BOLA }%{% endblock %}
") = Some (B "Invalid statement syntax. Must end with '}'.
Error occurred near line 1, position 27: {% block entry %}{{ BOLA }%{% endblock %}").
Proof. tests. Qed.

Definition test_template_parse_invalid_endif_not_closed_text1 : bytes := B "{% block entry %}{% endblock %}{% ifdef BOLA %}
".
Example test_template_parse_invalid_endif_not_closed :
  isnone (tp_err test_template_parse_invalid_endif_not_closed_text1) = false /\
  Nat.leb (length (tp_of test_template_parse_invalid_endif_not_closed_text1)) 0 = true /\
  tp_err test_template_parse_invalid_endif_not_closed_text1 = Some (B "1 open 'if', 'ifdef' and/or 'ifndef' statements were not closed!").
Proof. tests. Qed.

Definition test_template_parse_invalid_endif_not_closed_inside_block_text1 : bytes := B "{% block listing %}{% ifdef BOLA %}{% endblock %}{% endif %}".
Example test_template_parse_invalid_endif_not_closed_inside_block :
  isnone (tp_err test_template_parse_invalid_endif_not_closed_inside_block_text1) = false /\
  Nat.leb (length (tp_of test_template_parse_invalid_endif_not_closed_inside_block_text1)) 0 = true /\
  tp_err test_template_parse_invalid_endif_not_closed_inside_block_text1 = Some (B "1 open 'if', 'ifdef' and/or 'ifndef' statements were not closed inside a 'listing' block!").
Proof. tests. Qed.

Definition test_template_parse_invalid_else_not_closed_inside_block_text1 : bytes := B "{% block listing %}{% ifdef BOLA %}{% else %}{% endblock %}{% endif %}".
Example test_template_parse_invalid_else_not_closed_inside_block :
  isnone (tp_err test_template_parse_invalid_else_not_closed_inside_block_text1) = false /\
  Nat.leb (length (tp_of test_template_parse_invalid_else_not_closed_inside_block_text1)) 0 = true /\
  tp_err test_template_parse_invalid_else_not_closed_inside_block_text1 = Some (B "1 open 'if', 'ifdef' and/or 'ifndef' statements were not closed inside a 'listing' block!").
Proof. tests. Qed.

Example test_template_parse_invalid_block_not_closed :
  isnone (tp_err (B "{% block entry %}
")) = false /\
  Nat.leb (length (tp_of (B "{% block entry %}
"))) 0 = true /\
  tp_err (B "{% block entry %}
") = Some (B "An open block was not closed!").
Proof. tests. Qed.

Example test_template_parse_invalid_foreach_not_closed :
  isnone (tp_err (B "{% foreach ASD %}
")) = false /\
  Nat.leb (length (tp_of (B "{% foreach ASD %}
"))) 0 = true /\
  tp_err (B "{% foreach ASD %}
") = Some (B "An open 'foreach' statement was not closed!").
Proof. tests. Qed.

(* ---------- tests/blogc/check_toctree.c ---------- *)

Example test_toctree_append :
  Nat.leb (length (toctree_append [] 0 (Some []) (Some []))) 0 = true /\
  Nat.leb (length (toctree_append (toctree_append [] 0 (Some []) (Some [])) 1 (Some (B "f1")) (Some (B "bola")))) 0 = false /\
  h_level (hd_at (toctree_append (toctree_append [] 0 (Some []) (Some [])) 1 (Some (B "f1")) (Some (B "bola"))) 0) = 1 /\
  h_slug (hd_at (toctree_append (toctree_append [] 0 (Some []) (Some [])) 1 (Some (B "f1")) (Some (B "bola"))) 0) = Some (B "f1") /\
  h_text (hd_at (toctree_append (toctree_append [] 0 (Some []) (Some [])) 1 (Some (B "f1")) (Some (B "bola"))) 0) = Some (B "bola") /\
  Nat.leb (length (toctree_append (toctree_append [] 0 (Some []) (Some [])) 1 (Some (B "f1")) (Some (B "bola")))) 1 = true /\
  Nat.leb (length (toctree_append (toctree_append (toctree_append [] 0 (Some []) (Some [])) 1 (Some (B "f1")) (Some (B "bola"))) 2 (Some (B "f2")) (Some (B "guda")))) 0 = false /\
  h_level (hd_at (toctree_append (toctree_append (toctree_append [] 0 (Some []) (Some [])) 1 (Some (B "f1")) (Some (B "bola"))) 2 (Some (B "f2")) (Some (B "guda"))) 0) = 1 /\
  h_slug (hd_at (toctree_append (toctree_append (toctree_append [] 0 (Some []) (Some [])) 1 (Some (B "f1")) (Some (B "bola"))) 2 (Some (B "f2")) (Some (B "guda"))) 0) = Some (B "f1") /\
  h_text (hd_at (toctree_append (toctree_append (toctree_append [] 0 (Some []) (Some [])) 1 (Some (B "f1")) (Some (B "bola"))) 2 (Some (B "f2")) (Some (B "guda"))) 0) = Some (B "bola") /\
  Nat.leb (length (toctree_append (toctree_append (toctree_append [] 0 (Some []) (Some [])) 1 (Some (B "f1")) (Some (B "bola"))) 2 (Some (B "f2")) (Some (B "guda")))) 1 = false /\
  h_level (hd_at (toctree_append (toctree_append (toctree_append [] 0 (Some []) (Some [])) 1 (Some (B "f1")) (Some (B "bola"))) 2 (Some (B "f2")) (Some (B "guda"))) 1) = 2 /\
  h_slug (hd_at (toctree_append (toctree_append (toctree_append [] 0 (Some []) (Some [])) 1 (Some (B "f1")) (Some (B "bola"))) 2 (Some (B "f2")) (Some (B "guda"))) 1) = Some (B "f2") /\
  h_text (hd_at (toctree_append (toctree_append (toctree_append [] 0 (Some []) (Some [])) 1 (Some (B "f1")) (Some (B "bola"))) 2 (Some (B "f2")) (Some (B "guda"))) 1) = Some (B "guda") /\
  Nat.leb (length (toctree_append (toctree_append (toctree_append [] 0 (Some []) (Some [])) 1 (Some (B "f1")) (Some (B "bola"))) 2 (Some (B "f2")) (Some (B "guda")))) 2 = true /\
  Nat.leb (length (toctree_append (toctree_append (toctree_append (toctree_append [] 0 (Some []) (Some [])) 1 (Some (B "f1")) (Some (B "bola"))) 2 (Some (B "f2")) (Some (B "guda"))) 0 (Some []) (Some []))) 0 = false /\
  h_level (hd_at (toctree_append (toctree_append (toctree_append (toctree_append [] 0 (Some []) (Some [])) 1 (Some (B "f1")) (Some (B "bola"))) 2 (Some (B "f2")) (Some (B "guda"))) 0 (Some []) (Some [])) 0) = 1 /\
  h_slug (hd_at (toctree_append (toctree_append (toctree_append (toctree_append [] 0 (Some []) (Some [])) 1 (Some (B "f1")) (Some (B "bola"))) 2 (Some (B "f2")) (Some (B "guda"))) 0 (Some []) (Some [])) 0) = Some (B "f1") /\
  h_text (hd_at (toctree_append (toctree_append (toctree_append (toctree_append [] 0 (Some []) (Some [])) 1 (Some (B "f1")) (Some (B "bola"))) 2 (Some (B "f2")) (Some (B "guda"))) 0 (Some []) (Some [])) 0) = Some (B "bola") /\
  Nat.leb (length (toctree_append (toctree_append (toctree_append (toctree_append [] 0 (Some []) (Some [])) 1 (Some (B "f1")) (Some (B "bola"))) 2 (Some (B "f2")) (Some (B "guda"))) 0 (Some []) (Some []))) 1 = false /\
  h_level (hd_at (toctree_append (toctree_append (toctree_append (toctree_append [] 0 (Some []) (Some [])) 1 (Some (B "f1")) (Some (B "bola"))) 2 (Some (B "f2")) (Some (B "guda"))) 0 (Some []) (Some [])) 1) = 2 /\
  h_slug (hd_at (toctree_append (toctree_append (toctree_append (toctree_append [] 0 (Some []) (Some [])) 1 (Some (B "f1")) (Some (B "bola"))) 2 (Some (B "f2")) (Some (B "guda"))) 0 (Some []) (Some [])) 1) = Some (B "f2") /\
  h_text (hd_at (toctree_append (toctree_append (toctree_append (toctree_append [] 0 (Some []) (Some [])) 1 (Some (B "f1")) (Some (B "bola"))) 2 (Some (B "f2")) (Some (B "guda"))) 0 (Some []) (Some [])) 1) = Some (B "guda") /\
  Nat.leb (length (toctree_append (toctree_append (toctree_append (toctree_append [] 0 (Some []) (Some [])) 1 (Some (B "f1")) (Some (B "bola"))) 2 (Some (B "f2")) (Some (B "guda"))) 0 (Some []) (Some []))) 2 = true.
Proof. tests. Qed.

Definition test_toctree_render_text1 : bytes := B "<ul>
    <li><a href=""#f1"">bola</a></li>
    <li><a href=""#f2"">guda</a></li>
    <ul>
        <li><a href=""#f3"">asd</a></li>
        <ul>
            <li>foo</li>
        </ul>
    </ul>
    <li><a href=""#f5""></a></li>
    <ul>
        <ul>
            <ul>
                <ul>
                    <li></li>
                </ul>
            </ul>
        </ul>
    </ul>
</ul>
".
Example test_toctree_render :
  isnone (ok_opt (toctree_render [] 6%Z None)) = true /\
  ok_opt (toctree_render (toctree_append (toctree_append (toctree_append (toctree_append (toctree_append (toctree_append [] 1 (Some (B "f1")) (Some (B "bola"))) 1 (Some (B "f2")) (Some (B "guda"))) 2 (Some (B "f3")) (Some (B "asd"))) 3 None (Some (B "foo"))) 1 (Some (B "f5")) None) 5 None None) (-2)%Z None) = Some test_toctree_render_text1 /\
  ok_opt (toctree_render (toctree_append (toctree_append (toctree_append (toctree_append (toctree_append (toctree_append [] 1 (Some (B "f1")) (Some (B "bola"))) 1 (Some (B "f2")) (Some (B "guda"))) 2 (Some (B "f3")) (Some (B "asd"))) 3 None (Some (B "foo"))) 1 (Some (B "f5")) None) 5 None None) (-1)%Z (Some (B "
"))) = Some test_toctree_render_text1 /\
  ok_opt (toctree_render (toctree_append (toctree_append (toctree_append (toctree_append (toctree_append (toctree_append [] 1 (Some (B "f1")) (Some (B "bola"))) 1 (Some (B "f2")) (Some (B "guda"))) 2 (Some (B "f3")) (Some (B "asd"))) 3 None (Some (B "foo"))) 1 (Some (B "f5")) None) 5 None None) 6%Z (Some ([CR] ++ B "
"))) = Some (B "<ul>" ++ [CR] ++ B "
    <li><a href=""#f1"">bola</a></li>" ++ [CR] ++ B "
    <li><a href=""#f2"">guda</a></li>" ++ [CR] ++ B "
    <ul>" ++ [CR] ++ B "
        <li><a href=""#f3"">asd</a></li>" ++ [CR] ++ B "
        <ul>" ++ [CR] ++ B "
            <li>foo</li>" ++ [CR] ++ B "
        </ul>" ++ [CR] ++ B "
    </ul>" ++ [CR] ++ B "
    <li><a href=""#f5""></a></li>" ++ [CR] ++ B "
    <ul>" ++ [CR] ++ B "
        <ul>" ++ [CR] ++ B "
            <ul>" ++ [CR] ++ B "
                <ul>" ++ [CR] ++ B "
                    <li></li>" ++ [CR] ++ B "
                </ul>" ++ [CR] ++ B "
            </ul>" ++ [CR] ++ B "
        </ul>" ++ [CR] ++ B "
    </ul>" ++ [CR] ++ B "
</ul>" ++ [CR] ++ B "
") /\
  ok_opt (toctree_render (toctree_append (toctree_append (toctree_append (toctree_append (toctree_append (toctree_append [] 1 (Some (B "f1")) (Some (B "bola"))) 1 (Some (B "f2")) (Some (B "guda"))) 2 (Some (B "f3")) (Some (B "asd"))) 3 None (Some (B "foo"))) 1 (Some (B "f5")) None) 5 None None) 5%Z None) = Some test_toctree_render_text1 /\
  ok_opt (toctree_render (toctree_append (toctree_append (toctree_append (toctree_append (toctree_append (toctree_append [] 1 (Some (B "f1")) (Some (B "bola"))) 1 (Some (B "f2")) (Some (B "guda"))) 2 (Some (B "f3")) (Some (B "asd"))) 3 None (Some (B "foo"))) 1 (Some (B "f5")) None) 5 None None) 4%Z (Some (B "
"))) = Some (B "<ul>
    <li><a href=""#f1"">bola</a></li>
    <li><a href=""#f2"">guda</a></li>
    <ul>
        <li><a href=""#f3"">asd</a></li>
        <ul>
            <li>foo</li>
        </ul>
    </ul>
    <li><a href=""#f5""></a></li>
</ul>
") /\
  ok_opt (toctree_render (toctree_append (toctree_append (toctree_append (toctree_append (toctree_append (toctree_append [] 1 (Some (B "f1")) (Some (B "bola"))) 1 (Some (B "f2")) (Some (B "guda"))) 2 (Some (B "f3")) (Some (B "asd"))) 3 None (Some (B "foo"))) 1 (Some (B "f5")) None) 5 None None) 3%Z (Some ([CR] ++ B "
"))) = Some (B "<ul>" ++ [CR] ++ B "
    <li><a href=""#f1"">bola</a></li>" ++ [CR] ++ B "
    <li><a href=""#f2"">guda</a></li>" ++ [CR] ++ B "
    <ul>" ++ [CR] ++ B "
        <li><a href=""#f3"">asd</a></li>" ++ [CR] ++ B "
        <ul>" ++ [CR] ++ B "
            <li>foo</li>" ++ [CR] ++ B "
        </ul>" ++ [CR] ++ B "
    </ul>" ++ [CR] ++ B "
    <li><a href=""#f5""></a></li>" ++ [CR] ++ B "
</ul>" ++ [CR] ++ B "
") /\
  ok_opt (toctree_render (toctree_append (toctree_append (toctree_append (toctree_append (toctree_append (toctree_append [] 1 (Some (B "f1")) (Some (B "bola"))) 1 (Some (B "f2")) (Some (B "guda"))) 2 (Some (B "f3")) (Some (B "asd"))) 3 None (Some (B "foo"))) 1 (Some (B "f5")) None) 5 None None) 2%Z None) = Some (B "<ul>
    <li><a href=""#f1"">bola</a></li>
    <li><a href=""#f2"">guda</a></li>
    <ul>
        <li><a href=""#f3"">asd</a></li>
    </ul>
    <li><a href=""#f5""></a></li>
</ul>
") /\
  ok_opt (toctree_render (toctree_append (toctree_append (toctree_append (toctree_append (toctree_append (toctree_append [] 1 (Some (B "f1")) (Some (B "bola"))) 1 (Some (B "f2")) (Some (B "guda"))) 2 (Some (B "f3")) (Some (B "asd"))) 3 None (Some (B "foo"))) 1 (Some (B "f5")) None) 5 None None) 1%Z None) = Some (B "<ul>
    <li><a href=""#f1"">bola</a></li>
    <li><a href=""#f2"">guda</a></li>
    <li><a href=""#f5""></a></li>
</ul>
") /\
  isnone (ok_opt (toctree_render (toctree_append (toctree_append (toctree_append (toctree_append (toctree_append (toctree_append [] 1 (Some (B "f1")) (Some (B "bola"))) 1 (Some (B "f2")) (Some (B "guda"))) 2 (Some (B "f3")) (Some (B "asd"))) 3 None (Some (B "foo"))) 1 (Some (B "f5")) None) 5 None None) 0%Z None)) = true.
Proof. tests. Qed.

(* ---------- tests/blogc/check_filelist_parser.c ---------- *)

Example test_filelist_parse_empty :
  Nat.leb (length (fl_of (filelist_parse []))) 0 = true.
Proof. tests. Qed.

Definition test_filelist_parse_text1 : bytes := B "content/post/post1.txt
content/post/post2.txt
".
Definition test_filelist_parse_text2 : bytes := B "content/post/post1.txt
content/post/post2.txt
content/post/post3.txt".
Definition test_filelist_parse_text3 : bytes := B "   content/post/post1.txt
content/post/post2.txt" ++ [TAB] ++ B "
" ++ [TAB] ++ B "content/post/post3.txt".
Example test_filelist_parse :
  Nat.leb (length (fl_of (filelist_parse (B "content/post/post1.txt")))) 0 = false /\
  nth_error (fl_of (filelist_parse (B "content/post/post1.txt"))) 0 = Some (B "content/post/post1.txt") /\
  Nat.leb (length (fl_of (filelist_parse (B "content/post/post1.txt")))) 1 = true /\
  Nat.leb (length (fl_of (filelist_parse (B "content/post/post1.txt
")))) 0 = false /\
  nth_error (fl_of (filelist_parse (B "content/post/post1.txt
"))) 0 = Some (B "content/post/post1.txt") /\
  Nat.leb (length (fl_of (filelist_parse (B "content/post/post1.txt
")))) 1 = true /\
  Nat.leb (length (fl_of (filelist_parse test_filelist_parse_text1))) 0 = false /\
  nth_error (fl_of (filelist_parse test_filelist_parse_text1)) 0 = Some (B "content/post/post1.txt") /\
  nth_error (fl_of (filelist_parse test_filelist_parse_text1)) 1 = Some (B "content/post/post2.txt") /\
  Nat.leb (length (fl_of (filelist_parse test_filelist_parse_text1))) 2 = true /\
  Nat.leb (length (fl_of (filelist_parse test_filelist_parse_text2))) 0 = false /\
  nth_error (fl_of (filelist_parse test_filelist_parse_text2)) 0 = Some (B "content/post/post1.txt") /\
  nth_error (fl_of (filelist_parse test_filelist_parse_text2)) 1 = Some (B "content/post/post2.txt") /\
  nth_error (fl_of (filelist_parse test_filelist_parse_text2)) 2 = Some (B "content/post/post3.txt") /\
  Nat.leb (length (fl_of (filelist_parse test_filelist_parse_text2))) 3 = true /\
  Nat.leb (length (fl_of (filelist_parse test_filelist_parse_text3))) 0 = false /\
  nth_error (fl_of (filelist_parse test_filelist_parse_text3)) 0 = Some (B "content/post/post1.txt") /\
  nth_error (fl_of (filelist_parse test_filelist_parse_text3)) 1 = Some (B "content/post/post2.txt") /\
  nth_error (fl_of (filelist_parse test_filelist_parse_text3)) 2 = Some (B "content/post/post3.txt") /\
  Nat.leb (length (fl_of (filelist_parse test_filelist_parse_text3))) 3 = true.
Proof. tests. Qed.

Definition test_filelist_parse_crlf_text1 : bytes := B "content/post/post1.txt" ++ [CR] ++ B "
content/post/post2.txt" ++ [CR] ++ B "
".
Definition test_filelist_parse_crlf_text2 : bytes := B "content/post/post1.txt" ++ [CR] ++ B "
content/post/post2.txt" ++ [CR] ++ B "
content/post/post3.txt".
Definition test_filelist_parse_crlf_text3 : bytes := B "   content/post/post1.txt" ++ [CR] ++ B "
content/post/post2.txt" ++ [TAB] ++ [CR] ++ B "
" ++ [TAB] ++ B "content/post/post3.txt".
Example test_filelist_parse_crlf :
  Nat.leb (length (fl_of (filelist_parse (B "content/post/post1.txt" ++ [CR] ++ B "
")))) 0 = false /\
  nth_error (fl_of (filelist_parse (B "content/post/post1.txt" ++ [CR] ++ B "
"))) 0 = Some (B "content/post/post1.txt") /\
  Nat.leb (length (fl_of (filelist_parse (B "content/post/post1.txt" ++ [CR] ++ B "
")))) 1 = true /\
  Nat.leb (length (fl_of (filelist_parse test_filelist_parse_crlf_text1))) 0 = false /\
  nth_error (fl_of (filelist_parse test_filelist_parse_crlf_text1)) 0 = Some (B "content/post/post1.txt") /\
  nth_error (fl_of (filelist_parse test_filelist_parse_crlf_text1)) 1 = Some (B "content/post/post2.txt") /\
  Nat.leb (length (fl_of (filelist_parse test_filelist_parse_crlf_text1))) 2 = true /\
  Nat.leb (length (fl_of (filelist_parse test_filelist_parse_crlf_text2))) 0 = false /\
  nth_error (fl_of (filelist_parse test_filelist_parse_crlf_text2)) 0 = Some (B "content/post/post1.txt") /\
  nth_error (fl_of (filelist_parse test_filelist_parse_crlf_text2)) 1 = Some (B "content/post/post2.txt") /\
  nth_error (fl_of (filelist_parse test_filelist_parse_crlf_text2)) 2 = Some (B "content/post/post3.txt") /\
  Nat.leb (length (fl_of (filelist_parse test_filelist_parse_crlf_text2))) 3 = true /\
  Nat.leb (length (fl_of (filelist_parse test_filelist_parse_crlf_text3))) 0 = false /\
  nth_error (fl_of (filelist_parse test_filelist_parse_crlf_text3)) 0 = Some (B "content/post/post1.txt") /\
  nth_error (fl_of (filelist_parse test_filelist_parse_crlf_text3)) 1 = Some (B "content/post/post2.txt") /\
  nth_error (fl_of (filelist_parse test_filelist_parse_crlf_text3)) 2 = Some (B "content/post/post3.txt") /\
  Nat.leb (length (fl_of (filelist_parse test_filelist_parse_crlf_text3))) 3 = true.
Proof. tests. Qed.

(* ---------- tests/blogc/check_datetime_parser.c ---------- *)

Example test_convert_datetime :
  isnone (dt_err (B "2010-11-30 12:13:14") (B "%b %d, %Y, %I:%M:%S %p GMT") (convert_datetime (fun t => t) strftime_c (B "2010-11-30 12:13:14") (B "%b %d, %Y, %I:%M:%S %p GMT"))) = true /\
  dt_ok (convert_datetime (fun t => t) strftime_c (B "2010-11-30 12:13:14") (B "%b %d, %Y, %I:%M:%S %p GMT")) = Some (B "Nov 30, 2010, 12:13:14 PM GMT").
Proof. tests. Qed.

Example test_convert_datetime_implicit_seconds :
  isnone (dt_err (B "2010-11-30 12:13") (B "%b %d, %Y, %I:%M:%S %p GMT") (convert_datetime (fun t => t) strftime_c (B "2010-11-30 12:13") (B "%b %d, %Y, %I:%M:%S %p GMT"))) = true /\
  dt_ok (convert_datetime (fun t => t) strftime_c (B "2010-11-30 12:13") (B "%b %d, %Y, %I:%M:%S %p GMT")) = Some (B "Nov 30, 2010, 12:13:00 PM GMT").
Proof. tests. Qed.

Example test_convert_datetime_implicit_minutes :
  isnone (dt_err (B "2010-11-30 12") (B "%b %d, %Y, %I:%M:%S %p GMT") (convert_datetime (fun t => t) strftime_c (B "2010-11-30 12") (B "%b %d, %Y, %I:%M:%S %p GMT"))) = true /\
  dt_ok (convert_datetime (fun t => t) strftime_c (B "2010-11-30 12") (B "%b %d, %Y, %I:%M:%S %p GMT")) = Some (B "Nov 30, 2010, 12:00:00 PM GMT").
Proof. tests. Qed.

Example test_convert_datetime_implicit_hours :
  isnone (dt_err (B "2010-11-30") (B "%b %d, %Y, %I:%M:%S %p GMT") (convert_datetime (fun t => t) strftime_c (B "2010-11-30") (B "%b %d, %Y, %I:%M:%S %p GMT"))) = true /\
  dt_ok (convert_datetime (fun t => t) strftime_c (B "2010-11-30") (B "%b %d, %Y, %I:%M:%S %p GMT")) = Some (B "Nov 30, 2010, 12:00:00 AM GMT").
Proof. tests. Qed.

Example test_convert_datetime_invalid_formats_1 :
  isnone (dt_ok (convert_datetime (fun t => t) strftime_c [] (B "%b %d, %Y, %I:%M:%S %p GMT"))) = true /\
  isnone (dt_err [] (B "%b %d, %Y, %I:%M:%S %p GMT") (convert_datetime (fun t => t) strftime_c [] (B "%b %d, %Y, %I:%M:%S %p GMT"))) = false /\
  dt_err [] (B "%b %d, %Y, %I:%M:%S %p GMT") (convert_datetime (fun t => t) strftime_c [] (B "%b %d, %Y, %I:%M:%S %p GMT")) = Some (B "Invalid datetime string. Found '', formats allowed are: 'yyyy-mm-dd hh:mm:ss', 'yyyy-mm-dd hh:ss', 'yyyy-mm-dd hh' and 'yyyy-mm-dd'.") /\
  isnone (dt_ok (convert_datetime (fun t => t) strftime_c (B "2") (B "%b %d, %Y, %I:%M:%S %p GMT"))) = true /\
  isnone (dt_err (B "2") (B "%b %d, %Y, %I:%M:%S %p GMT") (convert_datetime (fun t => t) strftime_c (B "2") (B "%b %d, %Y, %I:%M:%S %p GMT"))) = false /\
  dt_err (B "2") (B "%b %d, %Y, %I:%M:%S %p GMT") (convert_datetime (fun t => t) strftime_c (B "2") (B "%b %d, %Y, %I:%M:%S %p GMT")) = Some (B "Invalid datetime string. Found '2', formats allowed are: 'yyyy-mm-dd hh:mm:ss', 'yyyy-mm-dd hh:ss', 'yyyy-mm-dd hh' and 'yyyy-mm-dd'.") /\
  isnone (dt_ok (convert_datetime (fun t => t) strftime_c (B "20") (B "%b %d, %Y, %I:%M:%S %p GMT"))) = true /\
  isnone (dt_err (B "20") (B "%b %d, %Y, %I:%M:%S %p GMT") (convert_datetime (fun t => t) strftime_c (B "20") (B "%b %d, %Y, %I:%M:%S %p GMT"))) = false /\
  dt_err (B "20") (B "%b %d, %Y, %I:%M:%S %p GMT") (convert_datetime (fun t => t) strftime_c (B "20") (B "%b %d, %Y, %I:%M:%S %p GMT")) = Some (B "Invalid datetime string. Found '20', formats allowed are: 'yyyy-mm-dd hh:mm:ss', 'yyyy-mm-dd hh:ss', 'yyyy-mm-dd hh' and 'yyyy-mm-dd'.") /\
  isnone (dt_ok (convert_datetime (fun t => t) strftime_c (B "201") (B "%b %d, %Y, %I:%M:%S %p GMT"))) = true /\
  isnone (dt_err (B "201") (B "%b %d, %Y, %I:%M:%S %p GMT") (convert_datetime (fun t => t) strftime_c (B "201") (B "%b %d, %Y, %I:%M:%S %p GMT"))) = false /\
  dt_err (B "201") (B "%b %d, %Y, %I:%M:%S %p GMT") (convert_datetime (fun t => t) strftime_c (B "201") (B "%b %d, %Y, %I:%M:%S %p GMT")) = Some (B "Invalid datetime string. Found '201', formats allowed are: 'yyyy-mm-dd hh:mm:ss', 'yyyy-mm-dd hh:ss', 'yyyy-mm-dd hh' and 'yyyy-mm-dd'.") /\
  isnone (dt_ok (convert_datetime (fun t => t) strftime_c (B "2010") (B "%b %d, %Y, %I:%M:%S %p GMT"))) = true /\
  isnone (dt_err (B "2010") (B "%b %d, %Y, %I:%M:%S %p GMT") (convert_datetime (fun t => t) strftime_c (B "2010") (B "%b %d, %Y, %I:%M:%S %p GMT"))) = false /\
  dt_err (B "2010") (B "%b %d, %Y, %I:%M:%S %p GMT") (convert_datetime (fun t => t) strftime_c (B "2010") (B "%b %d, %Y, %I:%M:%S %p GMT")) = Some (B "Invalid datetime string. Found '2010', formats allowed are: 'yyyy-mm-dd hh:mm:ss', 'yyyy-mm-dd hh:ss', 'yyyy-mm-dd hh' and 'yyyy-mm-dd'.") /\
  isnone (dt_ok (convert_datetime (fun t => t) strftime_c (B "2010-") (B "%b %d, %Y, %I:%M:%S %p GMT"))) = true /\
  isnone (dt_err (B "2010-") (B "%b %d, %Y, %I:%M:%S %p GMT") (convert_datetime (fun t => t) strftime_c (B "2010-") (B "%b %d, %Y, %I:%M:%S %p GMT"))) = false /\
  dt_err (B "2010-") (B "%b %d, %Y, %I:%M:%S %p GMT") (convert_datetime (fun t => t) strftime_c (B "2010-") (B "%b %d, %Y, %I:%M:%S %p GMT")) = Some (B "Invalid datetime string. Found '2010-', formats allowed are: 'yyyy-mm-dd hh:mm:ss', 'yyyy-mm-dd hh:ss', 'yyyy-mm-dd hh' and 'yyyy-mm-dd'.") /\
  isnone (dt_ok (convert_datetime (fun t => t) strftime_c (B "2010-1") (B "%b %d, %Y, %I:%M:%S %p GMT"))) = true /\
  isnone (dt_err (B "2010-1") (B "%b %d, %Y, %I:%M:%S %p GMT") (convert_datetime (fun t => t) strftime_c (B "2010-1") (B "%b %d, %Y, %I:%M:%S %p GMT"))) = false /\
  dt_err (B "2010-1") (B "%b %d, %Y, %I:%M:%S %p GMT") (convert_datetime (fun t => t) strftime_c (B "2010-1") (B "%b %d, %Y, %I:%M:%S %p GMT")) = Some (B "Invalid datetime string. Found '2010-1', formats allowed are: 'yyyy-mm-dd hh:mm:ss', 'yyyy-mm-dd hh:ss', 'yyyy-mm-dd hh' and 'yyyy-mm-dd'.") /\
  isnone (dt_ok (convert_datetime (fun t => t) strftime_c (B "2010-11") (B "%b %d, %Y, %I:%M:%S %p GMT"))) = true /\
  isnone (dt_err (B "2010-11") (B "%b %d, %Y, %I:%M:%S %p GMT") (convert_datetime (fun t => t) strftime_c (B "2010-11") (B "%b %d, %Y, %I:%M:%S %p GMT"))) = false /\
  dt_err (B "2010-11") (B "%b %d, %Y, %I:%M:%S %p GMT") (convert_datetime (fun t => t) strftime_c (B "2010-11") (B "%b %d, %Y, %I:%M:%S %p GMT")) = Some (B "Invalid datetime string. Found '2010-11', formats allowed are: 'yyyy-mm-dd hh:mm:ss', 'yyyy-mm-dd hh:ss', 'yyyy-mm-dd hh' and 'yyyy-mm-dd'.").
Proof. tests. Qed.

Example test_convert_datetime_invalid_formats_2 :
  isnone (dt_ok (convert_datetime (fun t => t) strftime_c (B "2010-11-") (B "%b %d, %Y, %I:%M:%S %p GMT"))) = true /\
  isnone (dt_err (B "2010-11-") (B "%b %d, %Y, %I:%M:%S %p GMT") (convert_datetime (fun t => t) strftime_c (B "2010-11-") (B "%b %d, %Y, %I:%M:%S %p GMT"))) = false /\
  dt_err (B "2010-11-") (B "%b %d, %Y, %I:%M:%S %p GMT") (convert_datetime (fun t => t) strftime_c (B "2010-11-") (B "%b %d, %Y, %I:%M:%S %p GMT")) = Some (B "Invalid datetime string. Found '2010-11-', formats allowed are: 'yyyy-mm-dd hh:mm:ss', 'yyyy-mm-dd hh:ss', 'yyyy-mm-dd hh' and 'yyyy-mm-dd'.") /\
  isnone (dt_ok (convert_datetime (fun t => t) strftime_c (B "2010-11-3") (B "%b %d, %Y, %I:%M:%S %p GMT"))) = true /\
  isnone (dt_err (B "2010-11-3") (B "%b %d, %Y, %I:%M:%S %p GMT") (convert_datetime (fun t => t) strftime_c (B "2010-11-3") (B "%b %d, %Y, %I:%M:%S %p GMT"))) = false /\
  dt_err (B "2010-11-3") (B "%b %d, %Y, %I:%M:%S %p GMT") (convert_datetime (fun t => t) strftime_c (B "2010-11-3") (B "%b %d, %Y, %I:%M:%S %p GMT")) = Some (B "Invalid datetime string. Found '2010-11-3', formats allowed are: 'yyyy-mm-dd hh:mm:ss', 'yyyy-mm-dd hh:ss', 'yyyy-mm-dd hh' and 'yyyy-mm-dd'.") /\
  isnone (dt_ok (convert_datetime (fun t => t) strftime_c (B "2010-11-30 ") (B "%b %d, %Y, %I:%M:%S %p GMT"))) = true /\
  isnone (dt_err (B "2010-11-30 ") (B "%b %d, %Y, %I:%M:%S %p GMT") (convert_datetime (fun t => t) strftime_c (B "2010-11-30 ") (B "%b %d, %Y, %I:%M:%S %p GMT"))) = false /\
  dt_err (B "2010-11-30 ") (B "%b %d, %Y, %I:%M:%S %p GMT") (convert_datetime (fun t => t) strftime_c (B "2010-11-30 ") (B "%b %d, %Y, %I:%M:%S %p GMT")) = Some (B "Invalid datetime string. Found '2010-11-30 ', formats allowed are: 'yyyy-mm-dd hh:mm:ss', 'yyyy-mm-dd hh:ss', 'yyyy-mm-dd hh' and 'yyyy-mm-dd'.") /\
  isnone (dt_ok (convert_datetime (fun t => t) strftime_c (B "2010-11-30 1") (B "%b %d, %Y, %I:%M:%S %p GMT"))) = true /\
  isnone (dt_err (B "2010-11-30 1") (B "%b %d, %Y, %I:%M:%S %p GMT") (convert_datetime (fun t => t) strftime_c (B "2010-11-30 1") (B "%b %d, %Y, %I:%M:%S %p GMT"))) = false /\
  dt_err (B "2010-11-30 1") (B "%b %d, %Y, %I:%M:%S %p GMT") (convert_datetime (fun t => t) strftime_c (B "2010-11-30 1") (B "%b %d, %Y, %I:%M:%S %p GMT")) = Some (B "Invalid datetime string. Found '2010-11-30 1', formats allowed are: 'yyyy-mm-dd hh:mm:ss', 'yyyy-mm-dd hh:ss', 'yyyy-mm-dd hh' and 'yyyy-mm-dd'.") /\
  isnone (dt_ok (convert_datetime (fun t => t) strftime_c (B "2010-11-30 12:1") (B "%b %d, %Y, %I:%M:%S %p GMT"))) = true /\
  isnone (dt_err (B "2010-11-30 12:1") (B "%b %d, %Y, %I:%M:%S %p GMT") (convert_datetime (fun t => t) strftime_c (B "2010-11-30 12:1") (B "%b %d, %Y, %I:%M:%S %p GMT"))) = false /\
  dt_err (B "2010-11-30 12:1") (B "%b %d, %Y, %I:%M:%S %p GMT") (convert_datetime (fun t => t) strftime_c (B "2010-11-30 12:1") (B "%b %d, %Y, %I:%M:%S %p GMT")) = Some (B "Invalid datetime string. Found '2010-11-30 12:1', formats allowed are: 'yyyy-mm-dd hh:mm:ss', 'yyyy-mm-dd hh:ss', 'yyyy-mm-dd hh' and 'yyyy-mm-dd'.") /\
  isnone (dt_ok (convert_datetime (fun t => t) strftime_c (B "2010-11-30 12:13:1") (B "%b %d, %Y, %I:%M:%S %p GMT"))) = true /\
  isnone (dt_err (B "2010-11-30 12:13:1") (B "%b %d, %Y, %I:%M:%S %p GMT") (convert_datetime (fun t => t) strftime_c (B "2010-11-30 12:13:1") (B "%b %d, %Y, %I:%M:%S %p GMT"))) = false /\
  dt_err (B "2010-11-30 12:13:1") (B "%b %d, %Y, %I:%M:%S %p GMT") (convert_datetime (fun t => t) strftime_c (B "2010-11-30 12:13:1") (B "%b %d, %Y, %I:%M:%S %p GMT")) = Some (B "Invalid datetime string. Found '2010-11-30 12:13:1', formats allowed are: 'yyyy-mm-dd hh:mm:ss', 'yyyy-mm-dd hh:ss', 'yyyy-mm-dd hh' and 'yyyy-mm-dd'.").
Proof. tests. Qed.

Example test_convert_datetime_invalid_1st_year :
  isnone (dt_ok (convert_datetime (fun t => t) strftime_c (B "a010-11-30 12:13:14") (B "%b %d, %Y, %I:%M:%S %p GMT"))) = true /\
  isnone (dt_err (B "a010-11-30 12:13:14") (B "%b %d, %Y, %I:%M:%S %p GMT") (convert_datetime (fun t => t) strftime_c (B "a010-11-30 12:13:14") (B "%b %d, %Y, %I:%M:%S %p GMT"))) = false /\
  dt_err (B "a010-11-30 12:13:14") (B "%b %d, %Y, %I:%M:%S %p GMT") (convert_datetime (fun t => t) strftime_c (B "a010-11-30 12:13:14") (B "%b %d, %Y, %I:%M:%S %p GMT")) = Some (B "Invalid first digit of year. Found 'a', must be integer >= 0 and <= 9.").
Proof. tests. Qed.

Example test_convert_datetime_invalid_2nd_year :
  isnone (dt_ok (convert_datetime (fun t => t) strftime_c (B "2a10-11-30 12:13:14") (B "%b %d, %Y, %I:%M:%S %p GMT"))) = true /\
  isnone (dt_err (B "2a10-11-30 12:13:14") (B "%b %d, %Y, %I:%M:%S %p GMT") (convert_datetime (fun t => t) strftime_c (B "2a10-11-30 12:13:14") (B "%b %d, %Y, %I:%M:%S %p GMT"))) = false /\
  dt_err (B "2a10-11-30 12:13:14") (B "%b %d, %Y, %I:%M:%S %p GMT") (convert_datetime (fun t => t) strftime_c (B "2a10-11-30 12:13:14") (B "%b %d, %Y, %I:%M:%S %p GMT")) = Some (B "Invalid second digit of year. Found 'a', must be integer >= 0 and <= 9.").
Proof. tests. Qed.

Example test_convert_datetime_invalid_3rd_year :
  isnone (dt_ok (convert_datetime (fun t => t) strftime_c (B "20a0-11-30 12:13:14") (B "%b %d, %Y, %I:%M:%S %p GMT"))) = true /\
  isnone (dt_err (B "20a0-11-30 12:13:14") (B "%b %d, %Y, %I:%M:%S %p GMT") (convert_datetime (fun t => t) strftime_c (B "20a0-11-30 12:13:14") (B "%b %d, %Y, %I:%M:%S %p GMT"))) = false /\
  dt_err (B "20a0-11-30 12:13:14") (B "%b %d, %Y, %I:%M:%S %p GMT") (convert_datetime (fun t => t) strftime_c (B "20a0-11-30 12:13:14") (B "%b %d, %Y, %I:%M:%S %p GMT")) = Some (B "Invalid third digit of year. Found 'a', must be integer >= 0 and <= 9.").
Proof. tests. Qed.

Example test_convert_datetime_invalid_4th_year :
  isnone (dt_ok (convert_datetime (fun t => t) strftime_c (B "201a-11-30 12:13:14") (B "%b %d, %Y, %I:%M:%S %p GMT"))) = true /\
  isnone (dt_err (B "201a-11-30 12:13:14") (B "%b %d, %Y, %I:%M:%S %p GMT") (convert_datetime (fun t => t) strftime_c (B "201a-11-30 12:13:14") (B "%b %d, %Y, %I:%M:%S %p GMT"))) = false /\
  dt_err (B "201a-11-30 12:13:14") (B "%b %d, %Y, %I:%M:%S %p GMT") (convert_datetime (fun t => t) strftime_c (B "201a-11-30 12:13:14") (B "%b %d, %Y, %I:%M:%S %p GMT")) = Some (B "Invalid fourth digit of year. Found 'a', must be integer >= 0 and <= 9.").
Proof. tests. Qed.

Example test_convert_datetime_invalid_year :
  isnone (dt_ok (convert_datetime (fun t => t) strftime_c (B "1899-11-30 12:13:14") (B "%b %d, %Y, %I:%M:%S %p GMT"))) = true /\
  isnone (dt_err (B "1899-11-30 12:13:14") (B "%b %d, %Y, %I:%M:%S %p GMT") (convert_datetime (fun t => t) strftime_c (B "1899-11-30 12:13:14") (B "%b %d, %Y, %I:%M:%S %p GMT"))) = false /\
  dt_err (B "1899-11-30 12:13:14") (B "%b %d, %Y, %I:%M:%S %p GMT") (convert_datetime (fun t => t) strftime_c (B "1899-11-30 12:13:14") (B "%b %d, %Y, %I:%M:%S %p GMT")) = Some (B "Invalid year. Found 1899, must be >= 1900.").
Proof. tests. Qed.

Example test_convert_datetime_invalid_1st_hyphen :
  isnone (dt_ok (convert_datetime (fun t => t) strftime_c (B "2010 11-30 12:13:14") (B "%b %d, %Y, %I:%M:%S %p GMT"))) = true /\
  isnone (dt_err (B "2010 11-30 12:13:14") (B "%b %d, %Y, %I:%M:%S %p GMT") (convert_datetime (fun t => t) strftime_c (B "2010 11-30 12:13:14") (B "%b %d, %Y, %I:%M:%S %p GMT"))) = false /\
  dt_err (B "2010 11-30 12:13:14") (B "%b %d, %Y, %I:%M:%S %p GMT") (convert_datetime (fun t => t) strftime_c (B "2010 11-30 12:13:14") (B "%b %d, %Y, %I:%M:%S %p GMT")) = Some (B "Invalid separator between year and month. Found ' ', must be '-'.").
Proof. tests. Qed.

Example test_convert_datetime_invalid_1st_month :
  isnone (dt_ok (convert_datetime (fun t => t) strftime_c (B "2010-a1-30 12:13:14") (B "%b %d, %Y, %I:%M:%S %p GMT"))) = true /\
  isnone (dt_err (B "2010-a1-30 12:13:14") (B "%b %d, %Y, %I:%M:%S %p GMT") (convert_datetime (fun t => t) strftime_c (B "2010-a1-30 12:13:14") (B "%b %d, %Y, %I:%M:%S %p GMT"))) = false /\
  dt_err (B "2010-a1-30 12:13:14") (B "%b %d, %Y, %I:%M:%S %p GMT") (convert_datetime (fun t => t) strftime_c (B "2010-a1-30 12:13:14") (B "%b %d, %Y, %I:%M:%S %p GMT")) = Some (B "Invalid first digit of month. Found 'a', must be integer >= 0 and <= 1.").
Proof. tests. Qed.

Example test_convert_datetime_invalid_2nd_month :
  isnone (dt_ok (convert_datetime (fun t => t) strftime_c (B "2010-1a-30 12:13:14") (B "%b %d, %Y, %I:%M:%S %p GMT"))) = true /\
  isnone (dt_err (B "2010-1a-30 12:13:14") (B "%b %d, %Y, %I:%M:%S %p GMT") (convert_datetime (fun t => t) strftime_c (B "2010-1a-30 12:13:14") (B "%b %d, %Y, %I:%M:%S %p GMT"))) = false /\
  dt_err (B "2010-1a-30 12:13:14") (B "%b %d, %Y, %I:%M:%S %p GMT") (convert_datetime (fun t => t) strftime_c (B "2010-1a-30 12:13:14") (B "%b %d, %Y, %I:%M:%S %p GMT")) = Some (B "Invalid second digit of month. Found 'a', must be integer >= 0 and <= 9.").
Proof. tests. Qed.

Example test_convert_datetime_invalid_month :
  isnone (dt_ok (convert_datetime (fun t => t) strftime_c (B "2010-13-30 12:13:14") (B "%b %d, %Y, %I:%M:%S %p GMT"))) = true /\
  isnone (dt_err (B "2010-13-30 12:13:14") (B "%b %d, %Y, %I:%M:%S %p GMT") (convert_datetime (fun t => t) strftime_c (B "2010-13-30 12:13:14") (B "%b %d, %Y, %I:%M:%S %p GMT"))) = false /\
  dt_err (B "2010-13-30 12:13:14") (B "%b %d, %Y, %I:%M:%S %p GMT") (convert_datetime (fun t => t) strftime_c (B "2010-13-30 12:13:14") (B "%b %d, %Y, %I:%M:%S %p GMT")) = Some (B "Invalid month. Found 13, must be >= 1 and <= 12.").
Proof. tests. Qed.

Example test_convert_datetime_invalid_2nd_hyphen :
  isnone (dt_ok (convert_datetime (fun t => t) strftime_c (B "2010-11 30 12:13:14") (B "%b %d, %Y, %I:%M:%S %p GMT"))) = true /\
  isnone (dt_err (B "2010-11 30 12:13:14") (B "%b %d, %Y, %I:%M:%S %p GMT") (convert_datetime (fun t => t) strftime_c (B "2010-11 30 12:13:14") (B "%b %d, %Y, %I:%M:%S %p GMT"))) = false /\
  dt_err (B "2010-11 30 12:13:14") (B "%b %d, %Y, %I:%M:%S %p GMT") (convert_datetime (fun t => t) strftime_c (B "2010-11 30 12:13:14") (B "%b %d, %Y, %I:%M:%S %p GMT")) = Some (B "Invalid separator between month and day. Found ' ', must be '-'.").
Proof. tests. Qed.

Example test_convert_datetime_invalid_1st_day :
  isnone (dt_ok (convert_datetime (fun t => t) strftime_c (B "2010-11-a0 12:13:14") (B "%b %d, %Y, %I:%M:%S %p GMT"))) = true /\
  isnone (dt_err (B "2010-11-a0 12:13:14") (B "%b %d, %Y, %I:%M:%S %p GMT") (convert_datetime (fun t => t) strftime_c (B "2010-11-a0 12:13:14") (B "%b %d, %Y, %I:%M:%S %p GMT"))) = false /\
  dt_err (B "2010-11-a0 12:13:14") (B "%b %d, %Y, %I:%M:%S %p GMT") (convert_datetime (fun t => t) strftime_c (B "2010-11-a0 12:13:14") (B "%b %d, %Y, %I:%M:%S %p GMT")) = Some (B "Invalid first digit of day. Found 'a', must be integer >= 0 and <= 3.").
Proof. tests. Qed.

Example test_convert_datetime_invalid_2nd_day :
  isnone (dt_ok (convert_datetime (fun t => t) strftime_c (B "2010-11-3a 12:13:14") (B "%b %d, %Y, %I:%M:%S %p GMT"))) = true /\
  isnone (dt_err (B "2010-11-3a 12:13:14") (B "%b %d, %Y, %I:%M:%S %p GMT") (convert_datetime (fun t => t) strftime_c (B "2010-11-3a 12:13:14") (B "%b %d, %Y, %I:%M:%S %p GMT"))) = false /\
  dt_err (B "2010-11-3a 12:13:14") (B "%b %d, %Y, %I:%M:%S %p GMT") (convert_datetime (fun t => t) strftime_c (B "2010-11-3a 12:13:14") (B "%b %d, %Y, %I:%M:%S %p GMT")) = Some (B "Invalid second digit of day. Found 'a', must be integer >= 0 and <= 9.").
Proof. tests. Qed.

Example test_convert_datetime_invalid_day :
  isnone (dt_ok (convert_datetime (fun t => t) strftime_c (B "2010-12-32 12:13:14") (B "%b %d, %Y, %I:%M:%S %p GMT"))) = true /\
  isnone (dt_err (B "2010-12-32 12:13:14") (B "%b %d, %Y, %I:%M:%S %p GMT") (convert_datetime (fun t => t) strftime_c (B "2010-12-32 12:13:14") (B "%b %d, %Y, %I:%M:%S %p GMT"))) = false /\
  dt_err (B "2010-12-32 12:13:14") (B "%b %d, %Y, %I:%M:%S %p GMT") (convert_datetime (fun t => t) strftime_c (B "2010-12-32 12:13:14") (B "%b %d, %Y, %I:%M:%S %p GMT")) = Some (B "Invalid day. Found 32, must be >= 1 and <= 31.").
Proof. tests. Qed.

Example test_convert_datetime_invalid_space :
  isnone (dt_ok (convert_datetime (fun t => t) strftime_c (B "2010-11-30-12:13:14") (B "%b %d, %Y, %I:%M:%S %p GMT"))) = true /\
  isnone (dt_err (B "2010-11-30-12:13:14") (B "%b %d, %Y, %I:%M:%S %p GMT") (convert_datetime (fun t => t) strftime_c (B "2010-11-30-12:13:14") (B "%b %d, %Y, %I:%M:%S %p GMT"))) = false /\
  dt_err (B "2010-11-30-12:13:14") (B "%b %d, %Y, %I:%M:%S %p GMT") (convert_datetime (fun t => t) strftime_c (B "2010-11-30-12:13:14") (B "%b %d, %Y, %I:%M:%S %p GMT")) = Some (B "Invalid separator between date and time. Found '-', must be ' ' (empty space).").
Proof. tests. Qed.

Example test_convert_datetime_invalid_1st_hours :
  isnone (dt_ok (convert_datetime (fun t => t) strftime_c (B "2010-11-30 a2:13:14") (B "%b %d, %Y, %I:%M:%S %p GMT"))) = true /\
  isnone (dt_err (B "2010-11-30 a2:13:14") (B "%b %d, %Y, %I:%M:%S %p GMT") (convert_datetime (fun t => t) strftime_c (B "2010-11-30 a2:13:14") (B "%b %d, %Y, %I:%M:%S %p GMT"))) = false /\
  dt_err (B "2010-11-30 a2:13:14") (B "%b %d, %Y, %I:%M:%S %p GMT") (convert_datetime (fun t => t) strftime_c (B "2010-11-30 a2:13:14") (B "%b %d, %Y, %I:%M:%S %p GMT")) = Some (B "Invalid first digit of hours. Found 'a', must be integer >= 0 and <= 2.").
Proof. tests. Qed.

Example test_convert_datetime_invalid_2nd_hours :
  isnone (dt_ok (convert_datetime (fun t => t) strftime_c (B "2010-11-30 1a:13:14") (B "%b %d, %Y, %I:%M:%S %p GMT"))) = true /\
  isnone (dt_err (B "2010-11-30 1a:13:14") (B "%b %d, %Y, %I:%M:%S %p GMT") (convert_datetime (fun t => t) strftime_c (B "2010-11-30 1a:13:14") (B "%b %d, %Y, %I:%M:%S %p GMT"))) = false /\
  dt_err (B "2010-11-30 1a:13:14") (B "%b %d, %Y, %I:%M:%S %p GMT") (convert_datetime (fun t => t) strftime_c (B "2010-11-30 1a:13:14") (B "%b %d, %Y, %I:%M:%S %p GMT")) = Some (B "Invalid second digit of hours. Found 'a', must be integer >= 0 and <= 9.").
Proof. tests. Qed.

Example test_convert_datetime_invalid_hours :
  isnone (dt_ok (convert_datetime (fun t => t) strftime_c (B "2010-12-30 24:13:14") (B "%b %d, %Y, %I:%M:%S %p GMT"))) = true /\
  isnone (dt_err (B "2010-12-30 24:13:14") (B "%b %d, %Y, %I:%M:%S %p GMT") (convert_datetime (fun t => t) strftime_c (B "2010-12-30 24:13:14") (B "%b %d, %Y, %I:%M:%S %p GMT"))) = false /\
  dt_err (B "2010-12-30 24:13:14") (B "%b %d, %Y, %I:%M:%S %p GMT") (convert_datetime (fun t => t) strftime_c (B "2010-12-30 24:13:14") (B "%b %d, %Y, %I:%M:%S %p GMT")) = Some (B "Invalid hours. Found 24, must be >= 0 and <= 23.").
Proof. tests. Qed.

Example test_convert_datetime_invalid_1st_colon :
  isnone (dt_ok (convert_datetime (fun t => t) strftime_c (B "2010-11-30 12 13:14") (B "%b %d, %Y, %I:%M:%S %p GMT"))) = true /\
  isnone (dt_err (B "2010-11-30 12 13:14") (B "%b %d, %Y, %I:%M:%S %p GMT") (convert_datetime (fun t => t) strftime_c (B "2010-11-30 12 13:14") (B "%b %d, %Y, %I:%M:%S %p GMT"))) = false /\
  dt_err (B "2010-11-30 12 13:14") (B "%b %d, %Y, %I:%M:%S %p GMT") (convert_datetime (fun t => t) strftime_c (B "2010-11-30 12 13:14") (B "%b %d, %Y, %I:%M:%S %p GMT")) = Some (B "Invalid separator between hours and minutes. Found ' ', must be ':'.").
Proof. tests. Qed.

Example test_convert_datetime_invalid_1st_minutes :
  isnone (dt_ok (convert_datetime (fun t => t) strftime_c (B "2010-11-30 12:a3:14") (B "%b %d, %Y, %I:%M:%S %p GMT"))) = true /\
  isnone (dt_err (B "2010-11-30 12:a3:14") (B "%b %d, %Y, %I:%M:%S %p GMT") (convert_datetime (fun t => t) strftime_c (B "2010-11-30 12:a3:14") (B "%b %d, %Y, %I:%M:%S %p GMT"))) = false /\
  dt_err (B "2010-11-30 12:a3:14") (B "%b %d, %Y, %I:%M:%S %p GMT") (convert_datetime (fun t => t) strftime_c (B "2010-11-30 12:a3:14") (B "%b %d, %Y, %I:%M:%S %p GMT")) = Some (B "Invalid first digit of minutes. Found 'a', must be integer >= 0 and <= 5.").
Proof. tests. Qed.

Example test_convert_datetime_invalid_2nd_minutes :
  isnone (dt_ok (convert_datetime (fun t => t) strftime_c (B "2010-11-30 12:1a:14") (B "%b %d, %Y, %I:%M:%S %p GMT"))) = true /\
  isnone (dt_err (B "2010-11-30 12:1a:14") (B "%b %d, %Y, %I:%M:%S %p GMT") (convert_datetime (fun t => t) strftime_c (B "2010-11-30 12:1a:14") (B "%b %d, %Y, %I:%M:%S %p GMT"))) = false /\
  dt_err (B "2010-11-30 12:1a:14") (B "%b %d, %Y, %I:%M:%S %p GMT") (convert_datetime (fun t => t) strftime_c (B "2010-11-30 12:1a:14") (B "%b %d, %Y, %I:%M:%S %p GMT")) = Some (B "Invalid second digit of minutes. Found 'a', must be integer >= 0 and <= 9.").
Proof. tests. Qed.

Example test_convert_datetime_invalid_2nd_colon :
  isnone (dt_ok (convert_datetime (fun t => t) strftime_c (B "2010-11-30 12:13 14") (B "%b %d, %Y, %I:%M:%S %p GMT"))) = true /\
  isnone (dt_err (B "2010-11-30 12:13 14") (B "%b %d, %Y, %I:%M:%S %p GMT") (convert_datetime (fun t => t) strftime_c (B "2010-11-30 12:13 14") (B "%b %d, %Y, %I:%M:%S %p GMT"))) = false /\
  dt_err (B "2010-11-30 12:13 14") (B "%b %d, %Y, %I:%M:%S %p GMT") (convert_datetime (fun t => t) strftime_c (B "2010-11-30 12:13 14") (B "%b %d, %Y, %I:%M:%S %p GMT")) = Some (B "Invalid separator between minutes and seconds. Found ' ', must be ':'.").
Proof. tests. Qed.

Example test_convert_datetime_invalid_1st_seconds :
  isnone (dt_ok (convert_datetime (fun t => t) strftime_c (B "2010-11-30 12:13:a4") (B "%b %d, %Y, %I:%M:%S %p GMT"))) = true /\
  isnone (dt_err (B "2010-11-30 12:13:a4") (B "%b %d, %Y, %I:%M:%S %p GMT") (convert_datetime (fun t => t) strftime_c (B "2010-11-30 12:13:a4") (B "%b %d, %Y, %I:%M:%S %p GMT"))) = false /\
  dt_err (B "2010-11-30 12:13:a4") (B "%b %d, %Y, %I:%M:%S %p GMT") (convert_datetime (fun t => t) strftime_c (B "2010-11-30 12:13:a4") (B "%b %d, %Y, %I:%M:%S %p GMT")) = Some (B "Invalid first digit of seconds. Found 'a', must be integer >= 0 and <= 6.").
Proof. tests. Qed.

Example test_convert_datetime_invalid_2nd_seconds :
  isnone (dt_ok (convert_datetime (fun t => t) strftime_c (B "2010-11-30 12:13:1a") (B "%b %d, %Y, %I:%M:%S %p GMT"))) = true /\
  isnone (dt_err (B "2010-11-30 12:13:1a") (B "%b %d, %Y, %I:%M:%S %p GMT") (convert_datetime (fun t => t) strftime_c (B "2010-11-30 12:13:1a") (B "%b %d, %Y, %I:%M:%S %p GMT"))) = false /\
  dt_err (B "2010-11-30 12:13:1a") (B "%b %d, %Y, %I:%M:%S %p GMT") (convert_datetime (fun t => t) strftime_c (B "2010-11-30 12:13:1a") (B "%b %d, %Y, %I:%M:%S %p GMT")) = Some (B "Invalid second digit of seconds. Found 'a', must be integer >= 0 and <= 9.").
Proof. tests. Qed.

Example test_convert_datetime_invalid_seconds :
  isnone (dt_ok (convert_datetime (fun t => t) strftime_c (B "2010-12-30 12:13:69") (B "%b %d, %Y, %I:%M:%S %p GMT"))) = true /\
  isnone (dt_err (B "2010-12-30 12:13:69") (B "%b %d, %Y, %I:%M:%S %p GMT") (convert_datetime (fun t => t) strftime_c (B "2010-12-30 12:13:69") (B "%b %d, %Y, %I:%M:%S %p GMT"))) = false /\
  dt_err (B "2010-12-30 12:13:69") (B "%b %d, %Y, %I:%M:%S %p GMT") (convert_datetime (fun t => t) strftime_c (B "2010-12-30 12:13:69") (B "%b %d, %Y, %I:%M:%S %p GMT")) = Some (B "Invalid seconds. Found 69, must be >= 0 and <= 60.").
Proof. tests. Qed.

Definition test_convert_datetime_invalid_format_long_text1 : bytes := B "bovhsuhxwybfrxoluiejaoqpmoylgvkrjtnuntmcgtupwabexkapnklvkwmddmplfqopvbyjsiimtfdeveeeayqvvnthimbqotumngxxenurxhsvyaftwsfdtxqnjluvtcwfkomfffrktywccrvnraagtnedwdjtfobinobbymanppwqxubxeepotdyxuvircyshpmtrqyvbivtycsolwvqwdqaswdafohqkthraenpueuywbocrsbmmfoqwgbeixosyjljamcqwecfoxgolyxifltaoamuirnnsvoqcnboueqnnyksawwrdtcsiklanjxeavlaqsaswacmbvmselsnghivietwrftrfimjshrjlwxdhjkktivwmmesihlxkmqpmvfqjuimbmaucdxaqcgjdacgksqdseqkoprknyjylchdlijfgktveldlewixwrycytrjxxesrcbraydmbgitkldbxxhnjwqdmcwctatrtjvrboulykkpvmsthontrunvkylwanwnnbpgwiwrgctfsvfgtxpifmpxhwikcylfeycjlscmsjnvwfhlkwevcmvvoypmfqlnrwywkwvinkwbjpgxpdxfckghutcovrdhlatumhfvowbfyiowyqpsbqhdxxauflpteyagsjtbulpktxmhkxxbgpetlwnckwsvhgmtasviemjeatejstslaivqeltycdgqylhqadxnrdlldbqdwuabdsrqwlxmetahvkrlvmyfgfftrlujfgktwvevwidoqvigelfaohgjtaplygmmiwrcspaqntfhthikewunxhebqbkwiopplcmywvjeehslwuaeruwnphdjonqagjatjladqhvlxppyaqgvwpjqggnsccmkjvbxqykaejvgeajqpitkwsqgmjiaopomnnlewidhgbgqlblotrnuyokspuvbckqhwnhmgcwyyitmlelnehdvclojvyswjjgipsincitulscikxviaruryfraeqssykeftcphtndlfhdxokg".
Example test_convert_datetime_invalid_format_long :
  isnone (dt_ok (convert_datetime (fun t => t) strftime_c (B "2010-12-30 12:13:14") test_convert_datetime_invalid_format_long_text1)) = true /\
  isnone (dt_err (B "2010-12-30 12:13:14") test_convert_datetime_invalid_format_long_text1 (convert_datetime (fun t => t) strftime_c (B "2010-12-30 12:13:14") test_convert_datetime_invalid_format_long_text1)) = false /\
  dt_err (B "2010-12-30 12:13:14") test_convert_datetime_invalid_format_long_text1 (convert_datetime (fun t => t) strftime_c (B "2010-12-30 12:13:14") test_convert_datetime_invalid_format_long_text1) = Some (B "Failed to format DATE variable, FORMAT is too long: bovhsuhxwybfrxoluiejaoqpmoylgvkrjtnuntmcgtupwabexkapnklvkwmddmplfqopvbyjsiimtfdeveeeayqvvnthimbqotumngxxenurxhsvyaftwsfdtxqnjluvtcwfkomfffrktywccrvnraagtnedwdjtfobinobbymanppwqxubxeepotdyxuvircyshpmtrqyvbivtycsolwvqwdqaswdafohqkthraenpueuywbocrsbmmfoqwgbeixosyjljamcqwecfoxgolyxifltaoamuirnnsvoqcnboueqnnyksawwrdtcsiklanjxeavlaqsaswacmbvmselsnghivietwrftrfimjshrjlwxdhjkktivwmmesihlxkmqpmvfqjuimbmaucdxaqcgjdacgksqdseqkoprknyjylchdlijfgktveldlewixwrycytrjxxesrcbraydmbgitkldbxxhnjwqdmcwctatrtjvrboulykkpvmsthontrunvkylwanwnnbpgwiwrgctfsvfgtxpifmpxhwikcylfeycjlscmsjnvwfhlkwevcmvvoypmfqlnrwywkwvinkwbjpgxpdxfckghutcovrdhlatumhfvowbfyiowyqpsbqhdxxauflpteyagsjtbulpktxmhkxxbgpetlwnckwsvhgmtasviemjeatejstslaivqeltycdgqylhqadxnrdlldbqdwuabdsrqwlxmetahvkrlvmyfgfftrlujfgktwvevwidoqvigelfaohgjtaplygmmiwrcspaqntfhthikewunxhebqbkwiopplcmywvjeehslwuaeruwnphdjonqagjatjladqhvlxppyaqgvwpjqggnsccmkjvbxqykaejvgeajqpitkwsqgmjiaopomnnlewidhgbgqlblotrnuyokspuvbckqhwnhmgcwyyitmlelnehdvclojvyswjjgipsincitulscikxviaruryfraeqssykeftcphtndlfhdxokg").
Proof. tests. Qed.
