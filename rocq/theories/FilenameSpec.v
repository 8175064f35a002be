(* How the files of a website are named: man/blogcfile.5.ronn 80-85, 92-95, 110-116,
   137-139. Independent of utils.c; an absent part is the empty string. *)
From Verif Require Import Base ReceiverSpec.

Definition absent (s : bytes) : Prop := s = [].
Definition slash (s : bytes) : Prop := exists r, s = "/"%char :: r.

(* the last component before the extension:
   - the name, if there is one; but 'index' is left out where it would give
     /index/index.html in the root,
   - without a name and a prefix, 'index', unless the extension is a file name
     of its own. *)
Inductive last_part (prefix name ext : bytes) : list bytes -> Prop :=
| LP_name : name <> [] -> ~ (name = B "index" /\ slash ext /\ prefix = []) ->
    (prefix = [] \/ ~ slash name) -> last_part prefix name ext [name]
| LP_slash r : name = "/"%char :: r -> prefix <> [] -> last_part prefix name ext [r]
| LP_root : name = B "index" -> slash ext -> prefix = [] -> last_part prefix name ext []
| LP_index : name = [] -> prefix = [] -> ext <> [] -> ~ slash ext -> last_part prefix name ext [B "index"]
| LP_prefix : name = [] -> prefix <> [] \/ ext = [] \/ slash ext -> last_part prefix name ext [].

Definition nonempty (s : bytes) : bool := match s with [] => false | _ => true end.
Definition path (parts : list bytes) : bytes := flat_map (fun x => B "/" ++ x) parts.

(* the file for these settings *)
Definition names (dir gprefix prefix name ext file : bytes) : Prop :=
  exists last, last_part prefix name ext last
    /\ file = dir ++ path (filter nonempty [gprefix; prefix] ++ last) ++ ext.

(* a component of a path that is a real name *)
Definition real (c : bytes) : Prop := c <> [] /\ c <> B "." /\ c <> B "..".
