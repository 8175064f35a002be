(* Model of src/blogc/loader.c. *)
From Coq Require Import ZArith.
From Verif Require Import Base Utils Trie Datetime Sort Content Source.
#[local] Open Scope Z_scope.

(* blogc_get_filename, 20-54. The loop runs from the NUL backwards: [r] is what is
   left of i, reversed, [acc] what tmp holds from i + 1 to its NUL. (i is an int:
   names of 2^31 bytes or more are not modelled.) *)
Fixpoint filename_go (removed_dot : bool) (acc r : bytes) : bytes :=
  match r with
  | [] => acc
  | c :: r =>
      if negb removed_dot && (c == "."%char) then filename_go true [] r
      else if (c == "/"%char) || (c == BSL) then acc
      else filename_go removed_dot (c :: acc) r
  end.
Definition get_filename (f : option bytes) : option bytes :=
  match f with
  | None | Some [] => None
  | Some f => Some (filename_go false [] (rev f))
  end.

(* the errors of 147-194; the text is not modelled *)
Inductive lerror : Type :=
| LSource (f : bytes) (e : option serror)   (* None: the file cannot be read *)
| LNoDate (f : bytes)
| LBadDate (f : bytes) (e : derror)
| LMixed.
Inductive loaded (A : Type) : Type := Loaded (a : A) | Failed (e : lerror).
Arguments Loaded {A}. Arguments Failed {A}.

(* printf of %ld *)
Definition print_z (z : Z) : bytes :=
  if z <? 0 then "-"%char :: dec (Z.to_N (- z)) else dec (Z.to_N z).

(* strtoul (s, NULL, 10): the magnitude saturates at 2^64 - 1, then a minus sign
   negates modulo 2^64 *)
Definition strtoul (s : bytes) : Z :=
  let t := skip_space s in
  let '(neg, u) := match t with
                   | c :: r => if c == "-"%char then (true, r) else if c == "+"%char then (false, r) else (false, t)
                   | [] => (false, [])
                   end in
  let '(z, _) := digits_value u 0 in
  if 2 ^ 64 <=? z then 2 ^ 64 - 1 else (if neg : bool then - z else z) mod 2 ^ 64.

(* sort_source, 109-123, and sort_source_reverse, 126-130 *)
Definition sort_source (a b : trie bytes) : Z :=
  match trie_lookup a (B "c"), trie_lookup b (B "c") with
  | Some ca, Some cb => to_int ((strtoul cb - strtoul ca) mod 2 ^ 64)
  | _, _ => 0
  end.
Definition sort_source_reverse (a b : trie bytes) : Z := sort_source b a.

(* Conversion to float (24 bit significand, round to nearest, ties to even). *)
Definition round_even (n d : Z) : Z :=
  let q := n / d in let r := n mod d in
  if 2 * r <? d then q else if d <? 2 * r then q + 1 else if Z.even q then q else q + 1.
(* a positive integer as float: always an integer again *)
Definition float_of (n : Z) : Z :=
  if n <? 2 ^ 24 then n else let e := Z.log2 n - 23 in round_even n (2 ^ e) * 2 ^ e.
(* a / b as float for positive a and b: significand and exponent *)
Definition float_div (a b : Z) : Z * Z :=
  let scale e := if 0 <=? e then (a, b * 2 ^ e) else (a * 2 ^ (- e), b) in
  let e0 := Z.log2 a - Z.log2 b - 24 in
  let '(n0, d0) := scale e0 in
  let e := if n0 <? 2 ^ 24 * d0 then e0 else e0 + 1 in
  let '(n, d) := scale e in (round_even n d, e).
Definition float_ceil (x : Z * Z) : Z :=
  let '(m, e) := x in if 0 <=? e then m * 2 ^ e else - ((- m) / 2 ^ (- e)).
(* ceilf (((float) counter) / per_page) converted to size_t, 300: with per_page = 0
   the quotient is infinite or not a number, and its conversion undefined *)
Definition last_page (counter per_page : Z) : res Z :=
  if per_page =? 0 then UB
  else if counter =? 0 then Ok 0
  else Ok (float_ceil (float_div (float_of counter) (float_of per_page))).

Section Loader.
(* bc_file_get_contents with utf8 = true (FileIO.v): None is an error *)
Variable contents : bytes -> option bytes.
(* blogc_convert_datetime's libc calls (Datetime.v) *)
Variable mktime : tm -> tm.
Variable strftime : bytes -> tm -> option bytes.
Variable fuel : nat.   (* of the content parser *)

(* blogc_source_parse_from_file, 73-106. A TOCTREE_MAXDEPTH that is not a number
   only prints a warning (not modelled). *)
Definition source_parse_from_file (conf : trie bytes) (f : bytes) : res (loaded (trie bytes)) :=
  match contents f with
  | None => Ok (Failed (LSource f None))
  | Some s =>
      let md := match trie_lookup conf (B "TOCTREE_MAXDEPTH") with
                | None => -1
                | Some m => to_int (fst (strtol m))
                end in
      do r <- source_parse fuel s md ;
      Ok (match r with
          | Bad e => Failed (LSource f (Some e))
          | Good t => Loaded (match get_filename (Some f) with
                              | Some n => trie_insert t (B "FILENAME") n
                              | None => t
                              end)
          end)
  end.

(* the for loop, 144-186: the sources so far and with_date *)
Fixpoint load_go (conf : trie bytes) (sort : bool) (l : list bytes) (sources : list (trie bytes)) (with_date : nat)
  : res (loaded (list (trie bytes) * nat)) :=
  match l with
  | [] => Ok (Loaded (sources, with_date))
  | f :: l =>
      do r <- source_parse_from_file conf f ;
      match r with
      | Failed e => Ok (Failed e)
      | Loaded s =>
          let date := trie_lookup s (B "DATE") in
          let with_date := match date with Some _ => S with_date | None => with_date end in
          if sort then
            match date with
            | None => Ok (Failed (LNoDate f))
            | Some d => match convert_datetime mktime strftime d (B "%s") with
                        | Datatypes.inr e => Ok (Failed (LBadDate f e))
                        | Datatypes.inl timestamp =>
                            load_go conf sort l (sources ++ [trie_insert s (B "c") timestamp]) with_date
                        end
            end
          else load_go conf sort l (sources ++ [s]) with_date
      end
  end.

(* 139-210: loading and ordering *)
Definition gather (conf : trie bytes) (l : list bytes) : res (loaded (list (trie bytes))) :=
  let sort := str_to_bool (trie_lookup conf (B "FILTER_SORT")) in
  do r <- load_go conf sort l [] 0 ;
  match r with
  | Failed e => Ok (Failed e)
  | Loaded (sources, with_date) =>
      if Nat.ltb 0 with_date && Nat.ltb with_date (length l) then Ok (Failed LMixed)
      else
        let reverse := str_to_bool (trie_lookup conf (B "FILTER_REVERSE")) in
        if sort then
          do s <- slist_sort (if reverse then sort_source_reverse else sort_source) sources ; Ok (Loaded s)
        else Ok (Loaded (if reverse then fold_left (fun acc s => s :: acc) sources [] else sources))
  end.

(* the tag test, 243-263 *)
Definition tag_found (filter_tag : option bytes) (s : trie bytes) : bool :=
  match filter_tag with
  | None => true
  | Some t => match trie_lookup s (B "TAGS") with
              | None => false
              | Some tags => existsb (fun x => match x with [] => false | _ => beq x t end) (str_split tags SP 0)
              end
  end.

(* the for loop, 241-273: rv and counter *)
Fixpoint select (filter_tag : option bytes) (paged : bool) (start end_ : Z) (l rv : list (trie bytes)) (counter : Z)
  : list (trie bytes) * Z :=
  match l with
  | [] => (rv, counter)
  | s :: l =>
      if tag_found filter_tag s then
        if paged then
          if (counter <? start) || (end_ <=? counter) then select filter_tag paged start end_ l rv (counter + 1)
          else select filter_tag paged start end_ l (rv ++ [s]) (counter + 1)
        else select filter_tag paged start end_ l (rv ++ [s]) counter
      else select filter_tag paged start end_ l rv counter
  end.

Definition copy_var (s : trie bytes) (k k' : bytes) (conf : trie bytes) : trie bytes :=
  match trie_lookup s k with Some v => trie_insert conf k' v | None => conf end.
(* the for loop, 277-297 *)
Fixpoint first_last (first : bool) (rv : list (trie bytes)) (conf : trie bytes) : trie bytes :=
  match rv with
  | [] => conf
  | s :: rest =>
      let conf := if first then copy_var s (B "FILENAME") (B "FILENAME_FIRST") (copy_var s (B "DATE") (B "DATE_FIRST") conf)
                  else conf in
      let conf := match rest with
                  | [] => copy_var s (B "FILENAME") (B "FILENAME_LAST") (copy_var s (B "DATE") (B "DATE_LAST") conf)
                  | _ => conf
                  end in
      first_last false rest conf
  end.

(* 212-312: the listing and the variables added to conf. (page - 1) * per_page is
   undefined when it overflows a long. LAST_PAGE is printed with %d: the low 32
   bits of the size_t. *)
Definition listing (conf : trie bytes) (sources : list (trie bytes)) : res (list (trie bytes) * trie bytes) :=
  let filter_page := trie_lookup conf (B "FILTER_PAGE") in
  let page := fst (strtol (match filter_page with Some p => p | None => [] end)) in
  let page := if page <=? 0 then 1 else page in
  let per_page := fst (strtol (match trie_lookup conf (B "FILTER_PER_PAGE") with Some p => p | None => B "10" end)) in
  let per_page := if per_page <? 0 then 0 else per_page in
  do start <- (if (page - 1) * per_page <=? 2 ^ 63 - 1 then Ok ((page - 1) * per_page) else UB) ;
  let end_ := (start + per_page) mod 2 ^ 64 in
  let '(rv, counter) := select (trie_lookup conf (B "FILTER_TAG")) (match filter_page with Some _ => true | None => false end)
                          start end_ sources [] 0 in
  let conf := first_last true rv conf in
  match filter_page with
  | None => Ok (rv, conf)
  | Some _ =>
      do last <- last_page counter per_page ;
      let conf := trie_insert conf (B "CURRENT_PAGE") (print_z page) in
      let conf := if 1 <? page then trie_insert conf (B "PREVIOUS_PAGE") (print_z (page - 1)) else conf in
      let conf := if page <? last then trie_insert conf (B "NEXT_PAGE") (print_z (page + 1)) else conf in
      let conf := if Nat.ltb 0 (length rv) then trie_insert conf (B "FIRST_PAGE") (B "1") else conf in
      let conf := if 0 <? last then trie_insert conf (B "LAST_PAGE") (print_z (to_int last)) else conf in
      Ok (rv, conf)
  end.

(* blogc_source_parse_from_files, 133-313: the listing and conf afterwards. *)
Definition source_parse_from_files (conf : trie bytes) (l : list bytes)
  : res (loaded (list (trie bytes) * trie bytes)) :=
  do r <- gather conf l ;
  match r with
  | Failed e => Ok (Failed e)
  | Loaded sources => do x <- listing conf sources ; Ok (Loaded x)
  end.
End Loader.
