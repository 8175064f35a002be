(* What the arguments of blogc mean: man/blogc.1.ronn. Independent of the model of
   main.c; names are those of SettingsSpec, UTF-8 that of Utf8Spec. *)
From Verif Require Import Base Trie SettingsSpec BlogcCmdSpec.

(* the last definition of a name in a list of definitions *)
Fixpoint last_def (n : bytes) (l : list (bytes * bytes)) : option bytes :=
  match l with
  | [] => None
  | (k, v) :: r => match last_def n r with
                   | Some x => Some x
                   | None => if beq k n then Some v else None
                   end
  end.

(* the value of a variable for blogc when blogc-make calls it: the closest of the
   development flags, the variables of the rule for this file, those of the rule,
   the [global] section, the tags, and blogc's version *)
Definition or (a b : option bytes) : option bytes := match a with Some x => Some x | None => b end.
Definition only (b : bool) (k v n : bytes) : option bytes := if b then if beq k n then Some v else None else None.
Definition in_trie (t : option (trie bytes)) (n : bytes) : option bytes :=
  match t with Some t => trie_lookup t n | None => None end.
Definition effective (dev : bool) (lv gv : option (trie bytes)) (global : trie bytes) (tags : option (list bytes))
  (version : bytes) (n : bytes) : option bytes :=
  or (only dev (B "MAKE_ENV") (B "dev") n)
  (or (only dev (B "MAKE_ENV_DEV") (B "1") n)
  (or (in_trie lv n)
  (or (in_trie gv n)
  (or (trie_lookup global n)
  (or (match tags with Some t => only true (B "MAKE_TAGS") (spaced t) n | None => None end)
      (only true (B "BLOGC_VERSION") version n)))))).

(* [d] is a directory on the way to the file [f]: what stands before one of its separators *)
Definition parent (d f : bytes) : Prop := d <> [] /\ exists c r, f = d ++ c :: r /\ (c = "/"%char \/ c = BSL).
