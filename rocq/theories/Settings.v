(* Model of src/blogc-make/settings.c. *)
From Verif Require Import Base Utils Trie Config.

(* bm_settings_t, settings.h 10-17 *)
Record settings : Type := Settings
  { s_global : trie bytes; s_settings : trie bytes; s_posts : option (list bytes);
    s_pages : option (list bytes); s_copy : option (list bytes); s_tags : option (list bytes) }.

(* default_settings, 14-54; None is NULL *)
Definition default_settings : list (bytes * option bytes) :=
  [ (B "content_dir", Some (B "content")); (B "template_dir", Some (B "templates"));
    (B "atom_template", None); (B "main_template", Some (B "main.tmpl"));
    (B "source_ext", Some (B ".txt")); (B "listing_entry", None); (B "posts_sort", None);
    (B "pagination_prefix", Some (B "page")); (B "posts_per_page", Some (B "10"));
    (B "atom_posts_per_page", Some (B "10"));
    (B "html_ext", Some (B "/index.html")); (B "index_prefix", Some []);
    (B "post_prefix", Some (B "post")); (B "tag_prefix", Some (B "tag"));
    (B "html_order", Some (B "DESC")); (B "blog_prefix", None);
    (B "atom_prefix", Some (B "atom")); (B "atom_ext", Some (B ".xml"));
    (B "atom_order", Some (B "DESC")); (B "atom_legacy_entry_id", None);
    (B "date_format", Some (B "%b %d, %Y, %I:%M %p GMT")); (B "locale", None);
    (B "run_from_make", None) ].

(* required_global, 57-64 *)
Definition required_global : list bytes :=
  [B "AUTHOR_NAME"; B "AUTHOR_EMAIL"; B "SITE_TITLE"; B "SITE_TAGLINE"; B "BASE_DOMAIN"].

(* list_sections, 67-74 *)
Definition list_sections : list bytes :=
  [B "posts"; B "pages"; B "copy"; B "copy_files"; B "tags"].

(* the loop over the bytes of one key, 119-145: None if it ends, else the message *)
Fixpoint key_check (section key : bytes) (j : nat) (rest : bytes) : option bytes :=
  match rest with
  | [] => None
  | c :: r =>
      if Nat.eqb j 0 then
        if negb (is_upper c)
        then Some (B "Invalid [" ++ section ++ B "] key (first character must be uppercase): " ++ key)
        else key_check section key (j + 1) r
      else
        if negb (is_upper c || is_digit c || (c == "_"%char))
        then Some (B "Invalid [" ++ section
                   ++ B "] key (must be uppercase with '_' and digits after first character): " ++ key)
        else key_check section key (j + 1) r
  end.

(* the loop over the keys, 118-148. bc_strdup(NULL) is NULL, and bc_trie_insert
   stores it: not reachable for a key bc_config_list_keys reports, modelled as UB *)
Fixpoint globals (cfg : config) (section : bytes) (keys : list bytes) (acc : trie bytes)
  : res (trie bytes + bytes) :=
  match keys with
  | [] => Ok (inl acc)
  | k :: r =>
      match key_check section k 0 k with
      | Some e => Ok (inr e)
      | None =>
          match config_get cfg section k with
          | Some v => globals cfg section r (trie_insert acc k v)
          | None => UB
          end
      end
  end.

(* the loop over required_global, 152-162 *)
Fixpoint required (section : bytes) (names : list bytes) (g : trie bytes) : option bytes :=
  match names with
  | [] => None
  | n :: r =>
      match trie_lookup g n with
      | None | Some [] =>
          Some (B "[" ++ section ++ B "] key required but not found or empty: " ++ n)
      | Some _ => required section r g
      end
  end.

(* the loop over default_settings, 164-172 *)
Fixpoint with_defaults (cfg : config) (l : list (bytes * option bytes)) (acc : trie bytes) : trie bytes :=
  match l with
  | [] => acc
  | (k, d) :: r =>
      with_defaults cfg r
        (match (match config_get cfg (B "settings") k with Some v => Some v | None => d end) with
         | Some v => trie_insert acc k v
         | None => acc
         end)
  end.

(* bm_settings_parse, 77-186; [content] not NULL, [err] a fresh error pointer.
   The message of a configuration error is the one given to bc_error_parser,
   with its position dropped. *)
Definition settings_parse (content : bytes) : res (settings + bytes) :=
  do c <- config_parse list_sections content ;
  match c with
  | inr e => Ok (inr (ce_msg e))
  | inl cfg =>
      let (section, keys) :=
        match config_list_keys cfg (B "global") with
        | Some l => (B "global", l)
        | None =>
            match config_list_keys cfg (B "environment") with
            | Some l => (B "environment", l)
            | None => (B "global", [])
            end
        end in
      do g <- globals cfg section keys trie_new ;
      match g with
      | inr e => Ok (inr e)
      | inl g =>
          match required section required_global g with
          | Some e => Ok (inr e)
          | None =>
              Ok (inl (Settings g (with_defaults cfg default_settings trie_new)
                (config_get_list cfg (B "posts")) (config_get_list cfg (B "pages"))
                (match config_get_list cfg (B "copy") with
                 | Some l => Some l
                 | None => config_get_list cfg (B "copy_files")
                 end)
                (config_get_list cfg (B "tags"))))
          end
      end
  end.
