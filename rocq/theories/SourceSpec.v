(* What a source file is: assignments, a separator and the content
   (man/blogc-source.7.ronn). *)
From Coq Require Import ZArith.
From Verif Require Import Base Toctree ToctreeSpec InlineSpec BlockSpec DocSpec.

(* names that cannot be assigned *)
Definition reserved : list bytes :=
  [B "BLOGC_VERSION"; B "CONTENT"; B "DATE_FIRST_FORMATTED"; B "DATE_FORMATTED"; B "DATE_LAST_FORMATTED"; B "FILENAME";
   B "PAGE_CURRENT"; B "PAGE_FIRST"; B "PAGE_LAST"; B "PAGE_NEXT"; B "PAGE_PREVIOUS"].
Definition name (k : bytes) : Prop :=
  exists c r, k = c :: r /\ is_upper c = true /\ Forall (fun d => is_upper d = true \/ is_digit d = true \/ d = "_"%char) r.
Definition gap (g : bytes) : Prop := Forall (fun c => In c [SP; TAB; LF; CR]) g.

(* one assignment: what may come before it, its name, the rest of the line and
   the newline byte that ends it *)
Record entry : Type := Entry { e_gap : bytes; e_key : bytes; e_text : bytes; e_nl : ascii }.
Definition entry_ok (x : entry) : Prop :=
  gap (e_gap x) /\ name (e_key x) /\ ~ In (e_key x) reserved /\ on_line (e_text x) /\ newline_byte (e_nl x).
Definition entry_src (x : entry) : bytes := e_gap x ++ e_key x ++ ":"%char :: e_text x ++ [e_nl x].
Definition entries_src (l : list entry) : bytes := flat_map entry_src l.

(* the value of the last assignment to a name *)
Fixpoint assigned (l : list entry) (k : bytes) : option bytes :=
  match l with
  | [] => None
  | x :: r => match assigned r k with
              | Some v => Some v
              | None => if list_eq_dec ascii_dec (e_key x) k then Some (trim (e_text x)) else None
              end
  end.

(* hyphens and line endings *)
Definition separator (x : bytes) : Prop :=
  exists n nls, x = repeat "-"%char (S n) ++ nls /\ nls <> [] /\ Forall newline_byte nls.
Definition body (x : bytes) : Prop :=
  2 <= length x /\ no_nul x /\ forall c r, x = c :: r -> ~ newline_byte c.

(* an integer that fits an int *)
Definition integer (m : bytes) (d : Z) : Prop :=
  (- 2 ^ 31 <= d < 2 ^ 31)%Z /\
  exists ds n, decimal n ds /\ ((m = ds /\ d = Z.of_nat n) \/ (m = "+"%char :: ds /\ d = Z.of_nat n) \/
                                (m = "-"%char :: ds /\ d = - Z.of_nat n)%Z).
(* how deep the table of contents is: as assigned, or as asked for *)
Definition depth (default : Z) (m : option bytes) (d : Z) : Prop :=
  match m with None => d = default | Some m => integer m d end.
(* the table of contents (ToctreeSpec.v) *)
Definition table (hs : list header) (d : Z) (e : bytes) (t : option bytes) : Prop :=
  ((hs = [] \/ d = 0%Z) /\ t = None) \/
  (hs <> [] /\ d <> 0%Z /\ exists low l, lowest hs low /\ t = Some (text_at e 0 l) /\
    depth_after 0 l = Some 0 /\ one_list l /\ no_empty_list l /\
    items_at 0 l = map (fun h => (h_level h - low + 1, h)) (filter (shown low d) hs)).
Definition headers (l : list element) : list header :=
  flat_map (fun x => match x with EHead n _ _ sl h => [Header n (Some sl) (Some h)] | _ => [] end) l.

(* names the compiler assigns *)
Definition set_for_you : list bytes :=
  [B "RAW_CONTENT"; B "CONTENT"; B "EXCERPT"; B "FIRST_HEADER"; B "DESCRIPTION"; B "TOCTREE"].

Definition or_else {A} (a b : option A) : option A := match a with Some _ => a | None => b end.
(* the excerpt: everything if its end is not marked or marked at the beginning *)
Definition excerpt_html (e : bytes) (l : list element) : bytes :=
  match excerpt e [] None l with Some (c :: r) => c :: r | _ => doc_html e l end.
