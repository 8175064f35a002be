(* Model of src/blogc/main.c, built without MAKE_EMBEDDED on a POSIX system. The
   bytes of error messages and of the usage texts are not modelled, only that
   something is printed on stderr or that the help or version is printed. *)
From Verif Require Import Base Utils Utf8 Trie Filelist Template Datetime Loader Renderer.
#[local] Open Scope nat_scope.

(* ---- the command line, 139-265 ---- *)
Record opts : Type := Opts
  { o_debug : bool; o_stdin : bool; o_listing : bool; o_template : option bytes; o_output : option bytes;
    o_print : option bytes; o_sources : list bytes; o_entries : list bytes; o_config : trie bytes }.

(* what stops the loop over the arguments before its end; all but the last two return 0 *)
Inductive stop : Type :=
| SHelp | SVersion
| SUtf8                                  (* an invalid -D value: error on stderr, rv stays 0 (200-204) *)
| SDefine | SArgument.                   (* error on stderr, rv = 1 *)
Definition stop_status (s : stop) : nat :=
  match s with SHelp | SVersion | SUtf8 => 0 | SDefine | SArgument => 1 end.

(* the loop over the bytes of the key, 213-235 *)
Fixpoint define_key (j : nat) (rest : bytes) : bool :=
  match rest with
  | [] => true
  | c :: r =>
      if Nat.eqb j 0 then if negb (is_upper c) then false else define_key (j + 1) r
      else if negb (is_upper c || is_digit c || (c == "_"%char)) then false else define_key (j + 1) r
  end.

(* -D, 199-239 *)
Definition define_var (tmp : bytes) (conf : trie bytes) : res (trie bytes + stop) :=
  do ok <- utf8_validate tmp ;
  if negb ok then Ok (inr SUtf8)
  else match str_split tmp "="%char 2 with
       | [k; v] => if define_key 0 k then Ok (inl (trie_insert conf k v)) else Ok (inr SDefine)
       | _ => Ok (inr SDefine)
       end.

(* an argument of an option that takes a value *)
Definition set_value (c : ascii) (v : bytes) (o : opts) : res (opts + stop) :=
  if c == "e"%char then
    Ok (inl (Opts (o_debug o) (o_stdin o) (o_listing o) (o_template o) (o_output o) (o_print o) (o_sources o) (o_entries o ++ [v]) (o_config o)))
  else if c == "t"%char then
    Ok (inl (Opts (o_debug o) (o_stdin o) (o_listing o) (Some v) (o_output o) (o_print o) (o_sources o) (o_entries o) (o_config o)))
  else if c == "o"%char then
    Ok (inl (Opts (o_debug o) (o_stdin o) (o_listing o) (o_template o) (Some v) (o_print o) (o_sources o) (o_entries o) (o_config o)))
  else if c == "p"%char then
    Ok (inl (Opts (o_debug o) (o_stdin o) (o_listing o) (o_template o) (o_output o) (Some v) (o_sources o) (o_entries o) (o_config o)))
  else
    do r <- define_var v (o_config o) ;
    Ok (match r with
        | inl conf => inl (Opts (o_debug o) (o_stdin o) (o_listing o) (o_template o) (o_output o) (o_print o) (o_sources o) (o_entries o) conf)
        | inr s => inr s
        end).

Definition takes_value (c : ascii) : bool :=
  (c == "e"%char) || (c == "t"%char) || (c == "o"%char) || (c == "p"%char) || (c == "D"%char).

(* an option without a value *)
Definition set_flag (c : ascii) (o : opts) : opts + stop :=
  if c == "h"%char then inr SHelp
  else if c == "v"%char then inr SVersion
  else if c == "d"%char then
    inl (Opts true (o_stdin o) (o_listing o) (o_template o) (o_output o) (o_print o) (o_sources o) (o_entries o) (o_config o))
  else if c == "i"%char then
    inl (Opts (o_debug o) true (o_listing o) (o_template o) (o_output o) (o_print o) (o_sources o) (o_entries o) (o_config o))
  else if c == "l"%char then
    inl (Opts (o_debug o) (o_stdin o) true (o_template o) (o_output o) (o_print o) (o_sources o) (o_entries o) (o_config o))
  else inr SArgument.

(* the loop, 151-265; argv[i][1] of a string of one byte is its terminator *)
Fixpoint parse_args (args : list bytes) (o : opts) : res (opts + stop) :=
  match args with
  | [] => Ok (inl o)
  | a :: r =>
      match a with
      | "-"%char :: a' =>
          let c := match a' with c :: _ => c | [] => NUL end in
          if takes_value c then
            match tl a' with
            | [] =>
                match r with
                | v :: r' => do x <- set_value c v o ; match x with inl o => parse_args r' o | inr s => Ok (inr s) end
                | [] => Ok (inl o)
                end
            | v => do x <- set_value c v o ; match x with inl o => parse_args r o | inr s => Ok (inr s) end
            end
          else match set_flag c o with inl o => parse_args r o | inr s => Ok (inr s) end
      | _ => parse_args r (Opts (o_debug o) (o_stdin o) (o_listing o) (o_template o) (o_output o) (o_print o)
                              (o_sources o ++ [a]) (o_entries o) (o_config o))
      end
  end.

(* ---- running, 267-388 ---- *)
Inductive effect : Type :=
| EHelp | EVersion | EError              (* something on stderr *)
| EPrint (text : bytes)                  (* on stdout *)
| EDebug                                 (* the template, on stderr *)
| EMkdir (dir : bytes)
| EOpen (f : bytes)                      (* fopen(f, "w"): f is empty now *)
| EWrite (f : bytes) (text : bytes).     (* what reached the file *)

Section Main.
Variable contents : bytes -> option bytes.            (* bc_file_get_contents with utf8 = true *)
Variable mktime : tm -> tm.
Variable strftime : bytes -> tm -> option bytes.
Variable funcs : list (bytes * (vars -> vars)).       (* funcvars.c *)
Variable sfuel rfuel : nat.                           (* of the content parser and the renderer *)
Variable mkdir : bytes -> bool.                       (* made, or EEXIST *)
Variable fopen : bytes -> bool.
Variable stored : bytes -> bytes -> bytes.            (* what fprintf and fclose manage to store *)
Variable version : bytes.

Definition convert (date format : bytes) : option bytes :=
  match convert_datetime mktime strftime date format with inl x => Some x | inr _ => None end.

(* blogc_mkdir_recursive, 91-123: the directories tried; false if one failed (exit(2)) *)
Fixpoint mkdirs (done rest : bytes) : list effect * bool :=
  match rest with
  | [] => ([], true)
  | c :: r =>
      if negb (c == "/"%char) && negb (c == BSL) then mkdirs (done ++ [c]) r
      else match done with
           | [] => mkdirs (done ++ [c]) r
           | _ => if mkdir done then let (l, ok) := mkdirs (done ++ [c]) r in (EMkdir done :: l, ok)
                  else ([EMkdir done], false)
           end
  end.

(* the loop over listing_entries, 299-313 *)
Fixpoint load_entries (conf : trie bytes) (l : list bytes) : res (option (list (option (trie bytes)))) :=
  match l with
  | [] => Ok (Some [])
  | [] :: r => do x <- load_entries conf r ; Ok (match x with Some t => Some (None :: t) | None => None end)
  | f :: r =>
      do e <- source_parse_from_file contents sfuel conf f ;
      match e with
      | Failed _ => Ok None
      | Loaded e => do x <- load_entries conf r ; Ok (match x with Some t => Some (Some e :: t) | None => None end)
      end
  end.

(* writing, 352-370 *)
Definition write_page (output : option bytes) (out : option bytes) : list effect * nat :=
  let text := match out with Some t => t | None => [] end in
  match output with
  | Some f =>
      if beq f (B "-") then ([EPrint text], 0)
      else let (l, ok) := mkdirs [] f in
           if negb ok then (l ++ [EError], 2)
           else if fopen f then (l ++ [EOpen f; EWrite f (stored f text)], 0)
           else (l ++ [EError], 1)
  | None => ([EPrint text], 0)
  end.

(* 290-388, the sources being known *)
Definition compile (o : opts) (sources : list bytes) : res (list effect * nat) :=
  if negb (o_listing o) && Nat.eqb (length sources) 0 then Ok ([EError], 1)
  else if negb (o_listing o) && Nat.ltb 1 (length sources) then Ok ([EError], 1)
  else
    do s <- source_parse_from_files contents mktime strftime sfuel (o_config o) sources ;
    match s with
    | Failed _ => Ok ([EError], 1)
    | Loaded (s, config) =>
        do e <- (if o_listing o then load_entries config (o_entries o) else Ok (Some [])) ;
        match e with
        | None => Ok ([EError], 1)
        | Some entries =>
            match o_print o with
            | Some p =>
                let local := if o_listing o then None else match s with x :: _ => Some x | [] => None end in
                do v <- format_variable convert funcs p config local None None ;
                Ok (match fst v with
                    | None => ([EError], 78)                             (* EX_CONFIG *)
                    | Some v => ([EPrint (v ++ [LF])], 0)
                    end)
            | None =>
                match o_template o with
                | None => Ok ([EError], 1)
                | Some t =>
                    match contents t with
                    | None => Ok ([EError], 1)
                    | Some src =>
                        do l <- template_parse src ;
                        match l with
                        | inr _ => Ok ([EError], 1)
                        | inl l =>
                            do out <- render convert funcs l s (o_listing o) rfuel entries config ;
                            let (w, rv) := write_page (o_output o) (fst out) in
                            Ok ((if o_debug o then [EDebug] else []) ++ w, rv)
                        end
                    end
                end
            end
        end
    end.

(* main, 126-388: argv without argv[0]. Freeing the list of sources at the end is
   undefined if the list of files made it so (Filelist.v). *)
Definition blogc_main (args : list bytes) (stdin : bytes) : res (list effect * nat) :=
  do a <- parse_args args (Opts false false false None None None [] [] (trie_insert trie_new (B "BLOGC_VERSION") version)) ;
  match a with
  | inr s => Ok (match s with SHelp => [EHelp] | SVersion => [EVersion] | _ => [EError] end, stop_status s)
  | inl o =>
      if o_stdin o then
        do l <- filelist_parse stdin ;
        do r <- compile o (o_sources o ++ map snd l) ;
        do _ <- filelist_free l ;
        Ok r
      else compile o (o_sources o)
  end.
End Main.
