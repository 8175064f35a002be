(* The command line of blogc-make: man/blogc-make.1.ronn and its help. Independent of the
   model of main.c. *)
From Verif Require Import Base Trie Settings BlogcCmd Rules.

(* what can be asked for *)
Inductive item : Type := I_dev | I_verbose | I_file (f : bytes) | I_rule (r : bytes).
Definition dashed (a : bytes) : Prop := exists s, a = "-"%char :: s.
Inductive spelled : item -> list bytes -> Prop :=
| Sp_dev : spelled I_dev [B "-D"]
| Sp_verbose : spelled I_verbose [B "-V"]
| Sp_file f : spelled (I_file f) [B "-f"; f]
| Sp_joined f : f <> [] -> spelled (I_file f) [B "-f" ++ f]
| Sp_rule r : ~ dashed r -> spelled (I_rule r) [r].
Inductive line : list item -> list bytes -> Prop :=
| L_nil : line [] []
| L_cons i l a r : spelled i a -> line l r -> line (i :: l) (a ++ r).

(* what it means; the last -f counts *)
Definition wants_dev (l : list item) : Prop := In I_dev l.
Definition rules_of (l : list item) : list bytes := flat_map (fun i => match i with I_rule r => [r] | _ => [] end) l.
Definition rules_to_run (l : list item) : list bytes := match rules_of l with [] => [B "all"] | r => r end.
Inductive blogcfile_of : list item -> bytes -> Prop :=
| BF_default l : (forall f, ~ In (I_file f) l) -> blogcfile_of l (B "blogcfile")
| BF_given l f r : (forall g, ~ In (I_file g) r) -> blogcfile_of (l ++ I_file f :: r) f.

(* a word that is none of these: no option starts like that *)
Definition unknown_option (a : bytes) : Prop :=
  dashed a /\ forall c s, a = "-"%char :: c :: s -> ~ In c (B "hvDVf").

(* the same site but for -D *)
Definition site_with (dev : Prop) (c0 c : ctx) : Prop :=
  (e_dev (c_exec c) = true <-> dev) /\
  e_blogc (c_exec c) = e_blogc (c_exec c0) /\ e_runserver (c_exec c) = e_runserver (c_exec c0) /\
  e_settings (c_exec c) = e_settings (c_exec c0) /\ e_output_dir (c_exec c) = e_output_dir (c_exec c0) /\
  (c_root c, c_short_output c, c_main c, c_atom c, c_atom_tmp c, c_settings c, c_entry c, c_posts c, c_pages c, c_copy c) =
  (c_root c0, c_short_output c0, c_main c0, c_atom c0, c_atom_tmp c0, c_settings c0, c_entry c0, c_posts c0, c_pages c0, c_copy c0).

(* a rule string asks for the rule [n] *)
Definition asks_for (s n : bytes) : Prop := ~ In ":"%char n /\ (s = n \/ exists r, s = n ++ ":"%char :: r).
(* the rules that build, and what each of them stands for *)
Definition builds : list bytes :=
  [B "index"; B "atom"; B "atom_tags"; B "pagination"; B "pagination_tags"; B "posts"; B "tags"; B "pages"; B "copy"].
Definition wanted (rules : list bytes) (rule : bytes) : Prop :=
  exists s n, In s rules /\ asks_for s n /\ (n = B "all" \/ n = rule).
