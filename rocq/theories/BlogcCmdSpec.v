(* What a command line for blogc means to run: the words, in order, and the
   variables of a trie. Independent of the model of exec.c; the shell is ShSpec.v. *)
From Verif Require Import Base Trie ShSpec.

(* bytes that mean themselves to the shell outside quotes *)
Definition plain (c : ascii) : Prop :=
  c <> SP /\ c <> TAB /\ c <> SQ /\ c <> DQ /\ c <> BSL /\ sh_special c = false.

(* -D KEY=VALUE for every variable, in the order [bc_trie_foreach] gives them *)
Definition define (k v : bytes) : list bytes := [B "-D"; k ++ B "=" ++ v].
Definition defines (l : list (bytes * bytes)) : list bytes := flat_map (fun kv => define (fst kv) (snd kv)) l.

(* an option with a value, if there is one *)
Definition opt (o : bytes) (v : option bytes) : list bytes :=
  match v with Some v => [o; v] | None => [] end.

(* tags separated by single blanks *)
Fixpoint spaced (l : list bytes) : bytes :=
  match l with
  | [] => []
  | [t] => t
  | t :: r => t ++ [SP] ++ spaced r
  end.

(* the words of a call of blogc *)
Record call : Type := Call
  { k_locale : option bytes; k_bin : bytes; k_tags : option (list bytes);
    k_vars : list (bytes * bytes); k_dev : bool; k_print : option bytes; k_listing : bool;
    k_entry : option bytes; k_template : option bytes; k_output : option bytes; k_stdin : bool }.
Definition call_words (k : call) : list bytes :=
  (match k_locale k with Some l => [B "LC_ALL=" ++ l] | None => [] end)
  ++ [k_bin k]
  ++ (match k_tags k with Some t => define (B "MAKE_TAGS") (spaced t) | None => [] end)
  ++ defines (k_vars k)
  ++ (if k_dev k then define (B "MAKE_ENV_DEV") (B "1") ++ define (B "MAKE_ENV") (B "dev") else [])
  ++ opt (B "-p") (k_print k)
  ++ (if k_listing k then B "-l" :: opt (B "-e") (k_entry k) else [])
  ++ opt (B "-t") (k_template k)
  ++ opt (B "-o") (k_output k)
  ++ (if k_stdin k then [B "-i"] else []).

(* the pairs of a trie, without the nodes that hold nothing *)
Definition pairs (t : option (trie bytes)) : list (bytes * bytes) :=
  match t with
  | Some t => flat_map (fun kd => match snd kd with Some v => [(fst kd, v)] | None => [] end) (trie_foreach t)
  | None => []
  end.
