(* What a blogcfile must contain and what its settings are when it does not say:
   man/blogcfile.5.ronn. Independent of the model of settings.c. *)
From Verif Require Import Base Trie Config.

(* the settings and defaults as the manual page lists them (43-143); the last
   entry is not in the manual, it is refused by atom.c *)
Definition documented : list (bytes * option bytes) :=
  [ (B "atom_ext", Some (B ".xml"));
    (B "atom_order", Some (B "DESC"));
    (B "atom_posts_per_page", Some (B "10"));
    (B "atom_prefix", Some (B "atom"));
    (B "atom_template", None);
    (B "blog_prefix", None);
    (B "content_dir", Some (B "content"));
    (B "date_format", Some (B "%b %d, %Y, %I:%M %p GMT"));
    (B "html_ext", Some (B "/index.html"));
    (B "html_order", Some (B "DESC"));
    (B "index_prefix", Some []);
    (B "listing_entry", None);
    (B "locale", None);
    (B "main_template", Some (B "main.tmpl"));
    (B "pagination_prefix", Some (B "page"));
    (B "post_prefix", Some (B "post"));
    (B "posts_per_page", Some (B "10"));
    (B "posts_sort", None);
    (B "run_from_make", None);
    (B "source_ext", Some (B ".txt"));
    (B "tag_prefix", Some (B "tag"));
    (B "template_dir", Some (B "templates"));
    (B "atom_legacy_entry_id", None) ].

(* a variable name: an upper-case letter, then upper-case letters, digits and '_' *)
Definition letters : bytes := B "ABCDEFGHIJKLMNOPQRSTUVWXYZ".
Definition more : bytes := letters ++ B "0123456789_".
Definition valid_name (k : bytes) : Prop :=
  exists c r, k = c :: r /\ In c letters /\ Forall (fun x => In x more) r.

(* the section the variables come from: [global], or [environment] in a file
   that has no [global] *)
Definition variables_from (cfg : config) (sec : bytes) : Prop :=
  (config_list_keys cfg (B "global") <> None /\ sec = B "global")
  \/ (config_list_keys cfg (B "global") = None /\ config_list_keys cfg (B "environment") <> None
      /\ sec = B "environment")
  \/ (config_list_keys cfg (B "global") = None /\ config_list_keys cfg (B "environment") = None
      /\ sec = B "global").

(* the variables every blogcfile must set *)
Definition mandatory : list bytes :=
  [B "AUTHOR_EMAIL"; B "AUTHOR_NAME"; B "BASE_DOMAIN"; B "SITE_TAGLINE"; B "SITE_TITLE"].
Definition mandatory_set (cfg : config) (sec : bytes) : Prop :=
  forall n, In n mandatory -> exists v, config_get cfg sec n = Some v /\ v <> [].
Definition names_valid (cfg : config) (sec : bytes) : Prop :=
  forall k v, no_nul k -> config_get cfg sec k = Some v -> valid_name k.
(* as above, but the empty name is let through *)
Definition names_valid_or_empty (cfg : config) (sec : bytes) : Prop :=
  forall k v, no_nul k -> config_get cfg sec k = Some v -> valid_name k \/ k = [].

(* the value of a setting *)
Definition setting (cfg : config) (k : bytes) (d : option bytes) : option bytes :=
  match config_get cfg (B "settings") k with Some v => Some v | None => d end.
