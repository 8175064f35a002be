(* What the feed made with the template of blogc-make looks like, and when it is XML. *)
From Verif Require Import Base Utils.

(* ---- the feed ---- *)
(* [post]: the text of a variable for one entry, None for the feed itself; [tag]: the tag
   of the feed, if it is one of a tag; [self] and [link]: the addresses below the site's *)
Section Feed.
Variable P : Type.
Variable val : option P -> bytes -> bytes.
Variable tag : option bytes.
Variable self : bytes.
Variable link : P -> bytes.

Definition address (post : option P) (rel : bytes) : bytes := val post (B "BASE_DOMAIN") ++ val post (B "BASE_URL") ++ rel.

Definition entry (p : P) : bytes :=
  B "
  <entry>
    <title type=""text"">" ++ val (Some p) (B "TITLE") ++ B "</title>
    <id>" ++ address (Some p) (link p) ++ B "</id>
    <updated>" ++ val (Some p) (B "DATE_FORMATTED") ++ B "</updated>
    <published>" ++ val (Some p) (B "DATE_FORMATTED") ++ B "</published>
    <link href=""" ++ address (Some p) (link p) ++ B """ />
    <author>
      <name>" ++ val (Some p) (B "AUTHOR_NAME") ++ B "</name>
      <email>" ++ val (Some p) (B "AUTHOR_EMAIL") ++ B "</email>
    </author>
    <content type=""html""><![CDATA[" ++ val (Some p) (B "CONTENT") ++ B "]]></content>
  </entry>".

Definition feed (posts : list P) : bytes :=
  B "<?xml version=""1.0"" encoding=""utf-8""?>
<feed xmlns=""http://www.w3.org/2005/Atom"">
  <title type=""text"">" ++ val None (B "SITE_TITLE") ++ (match tag with Some t => B " - " ++ t | None => [] end) ++ B "</title>
  <id>" ++ address None self ++ B "</id>
  <updated>" ++ val None (B "DATE_FIRST_FORMATTED") ++ B "</updated>
  <link href=""" ++ address None (B "/") ++ B """ />
  <link href=""" ++ address None self ++ B """ rel=""self"" />
  <author>
    <name>" ++ val None (B "AUTHOR_NAME") ++ B "</name>
    <email>" ++ val None (B "AUTHOR_EMAIL") ++ B "</email>
  </author>
  <subtitle type=""text"">" ++ val None (B "SITE_TAGLINE") ++ B "</subtitle>" ++ flat_map entry posts ++ B "
</feed>
".
End Feed.

(* ---- XML ---- *)
(* the part of XML that matters here: which markup is well formed. Which characters are
   allowed, and references to entities, are left out. *)
Definition has (p s : bytes) : Prop := exists a b, s = a ++ p ++ b.
Definition chars (s : bytes) : Prop := ~ In "<"%char s /\ ~ In "&"%char s /\ ~ has (B "]]>") s.
Definition name_char (c : ascii) : bool := is_upper c || is_lower c.
Definition xml_name (n : bytes) : Prop := n <> [] /\ forallb name_char n = true.
Definition attribute (n v : bytes) : bytes := B " " ++ n ++ B "=""" ++ v ++ B """".
Definition attr_ok (a : bytes * bytes) : Prop :=
  xml_name (fst a) /\ ~ In "<"%char (snd a) /\ ~ In "&"%char (snd a) /\ ~ In DQ (snd a).
Definition attributes (l : list (bytes * bytes)) : bytes := flat_map (fun a => attribute (fst a) (snd a)) l.

(* what may stand between a start tag and its end tag, and the markup in it *)
Inductive content : bytes -> Prop :=
| X_text s : chars s -> content s
| X_markup s m r : chars s -> markup m -> content r -> content (s ++ m ++ r)
with markup : bytes -> Prop :=
| X_element n l s : xml_name n -> Forall attr_ok l -> NoDup (map fst l) -> content s ->
    markup (B "<" ++ n ++ attributes l ++ B ">" ++ s ++ B "</" ++ n ++ B ">")
| X_empty n l : xml_name n -> Forall attr_ok l -> NoDup (map fst l) ->
    markup (B "<" ++ n ++ attributes l ++ B " />")
| X_cdata s : ~ has (B "]]>") s -> markup (B "<![CDATA[" ++ s ++ B "]]>").
(* a document: the declaration and one element *)
Inductive document : bytes -> Prop :=
| X_document n l s : xml_name n -> Forall attr_ok l -> NoDup (map fst l) -> content s ->
    document (B "<?xml version=""1.0"" encoding=""utf-8""?>" ++ [LF] ++ B "<" ++ n ++ attributes l ++ B ">" ++ s
              ++ B "</" ++ n ++ B ">" ++ [LF]).
