(* Model of bm_atom_generate, src/blogc-make/atom.c. *)
From Verif Require Import Base Trie Settings Filename.

(* bc_strdup_vprintf of a format with arguments that are strings: every conversion but
   %% and %s (and one that lacks its argument) would read something that is not there *)
Fixpoint printf (format : bytes) (args : list bytes) : res bytes :=
  match format with
  | [] => Ok []
  | c :: r =>
      if c == "%"%char then
        match r with
        | d :: r =>
            if d == "%"%char then do x <- printf r args ; Ok (d :: x)
            else if d == "s"%char then
              match args with
              | a :: args => do x <- printf r args ; Ok (a ++ x)
              | [] => UB
              end
            else UB
        | [] => UB
        end
      else do x <- printf r args ; Ok (c :: x)
  end.

(* atom_template, 14-43 *)
Definition atom_template : bytes := B
"<?xml version=""1.0"" encoding=""utf-8""?>
<feed xmlns=""http://www.w3.org/2005/Atom"">
  <title type=""text"">{{ SITE_TITLE }}{%% ifdef FILTER_TAG %%} - {{ FILTER_TAG }}{%% endif %%}</title>
  <id>{{ BASE_DOMAIN }}{{ BASE_URL }}%s</id>
  <updated>{{ DATE_FIRST_FORMATTED }}</updated>
  <link href=""{{ BASE_DOMAIN }}{{ BASE_URL }}/"" />
  <link href=""{{ BASE_DOMAIN }}{{ BASE_URL }}%s"" rel=""self"" />
  <author>
    <name>{{ AUTHOR_NAME }}</name>
    <email>{{ AUTHOR_EMAIL }}</email>
  </author>
  <subtitle type=""text"">{{ SITE_TAGLINE }}</subtitle>
  {%%- block listing %%}
  <entry>
    <title type=""text"">{{ TITLE }}</title>
    <id>{{ BASE_DOMAIN }}{{ BASE_URL }}%s</id>
    <updated>{{ DATE_FORMATTED }}</updated>
    <published>{{ DATE_FORMATTED }}</published>
    <link href=""{{ BASE_DOMAIN }}{{ BASE_URL }}%s"" />
    <author>
      <name>{{ AUTHOR_NAME }}</name>
      <email>{{ AUTHOR_EMAIL }}</email>
    </author>
    <content type=""html""><![CDATA[{{ CONTENT }}]]></content>
  </entry>
  {%%- endblock %%}
</feed>
".

Definition nonempty_str (s : bytes) : bool := match s with [] => false | _ => true end.   (* s[0] != '\0' *)
(* bm_atom_generate, 46-86. A NULL atom_prefix or atom_ext would be dereferenced, the
   defaults exclude it; post_url is not NULL as "{{ FILENAME }}" is not empty. *)
Definition atom_generate (st : settings) : res bytes :=
  let blog_prefix := trie_lookup (s_settings st) (B "blog_prefix") in
  match trie_lookup (s_settings st) (B "atom_prefix"), trie_lookup (s_settings st) (B "atom_ext") with
  | Some atom_prefix, Some atom_ext =>
      do p <- match blog_prefix with Some b => do x <- printf b [] ; Ok (B "/" ++ x) | None => Ok [] end ;   (* 60-63 *)
      let atom_url :=
        p ++ when (nonempty_str atom_prefix) (B "/") ++ atom_prefix                                          (* 65-68 *)
        ++ B "{% ifdef FILTER_TAG %}/{{ FILTER_TAG }}"
        ++ when (negb (nonempty_str atom_prefix) && negb (starts_slash atom_ext)) (B "{% else %}/index")     (* 71-72 *)
        ++ B "{% endif %}" ++ atom_ext in
      match generate_filename None blog_prefix (trie_lookup (s_settings st) (B "post_prefix"))
              (Some (B "{{ FILENAME }}")) (trie_lookup (s_settings st) (B "html_ext")) with
      | Some post_url => printf atom_template [atom_url; atom_url; post_url; post_url]
      | None => UB
      end
  | _, _ => UB
  end.
