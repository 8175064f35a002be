(* The expectations of tests/blogc/check_renderer.c, as statements on the model. Written
   by a program from the C text of the tests, as T_Common.v. *)
From Coq Require Import ZArith.
From Verif Require Import Base Utils Trie Toctree Content ErrorPos Source Template Renderer.

(* blogc_convert_datetime for the one format the tests use *)
Definition convert (d f : bytes) : option bytes := if beq f (B "%R") then Some (firstn 5 (skipn 11 d)) else None.
Definition source (s : bytes) : trie bytes := match source_parse 50 s (-1)%Z with Ok (Good t) => t | _ => trie_new end.
Definition entries (l : list (bytes * bytes)) : trie bytes := fold_left (fun t p => trie_insert t (fst p) (snd p)) l trie_new.
Definition rendered (t : bytes) (ss : list (trie bytes)) (l : bool) (e : list (option (trie bytes))) (c : trie bytes) : option bytes :=
  match template_parse t with
  | Ok (Datatypes.inl n) => match render convert [] n ss l 2000 e c with Ok (Some o, _) => Some o | _ => None end
  | _ => None
  end.

Definition source1 : trie bytes := source (B "BOLA: asd
GUDA: zxc
GUDA2: zxc
DATE: 2015-01-02 03:04:05
DATE_FORMAT: %R
TAGS: foo   bar baz
-----
ahahahahahahahaha").

Definition source2 : trie bytes := source (B "BOLA: asd2
GUDA: zxc2
DATE: 2014-02-03 04:05:06
-----
ahahahahahahahaha2").

Definition source3 : trie bytes := source (B "BOLA: asd3
GUDA: zxc3
DATE: 2013-01-02 03:04:05
-----
ahahahahahahahaha3").

Example test_render_entry :
  rendered (B "foo
{% block listing_once %}fuuu{% endblock %}
{% block entry %}
{{ DATE }}
{% ifdef DATE_FORMATTED %}{{ DATE_FORMATTED }}{% endif %}
{% ifdef GUDA %}{{ GUDA }}{% endif %}
{% ifdef CHUNDA %}{{ CHUNDA }}{% endif %}
{% endblock %}
{% block listing %}lol{% endblock %}
{% if GUDA == GUDA2 %}gudabola{% endif %}
{% if GUDA == ""zxc"" %}LOL{% endif %}
{% if GUDA != ""bola"" %}HEHE{% endif %}
{% if GUDA < ""zxd"" %}LOL2{% endif %}
{% if GUDA > ""zxd"" %}LOL3{% else %}ELSE{% endif %}
{% if GUDA <= ""zxc"" %}LOL4{% endif %}
{% foreach TAGS %}lol {{ FOREACH_ITEM }} haha {% endforeach %}
{% foreach TAGS_ASD %}yay{% endforeach %}
{% block listing_empty %}vazio{% endblock %}
")
    [source1] false [] trie_new =
  Some (B "foo


2015-01-02 03:04:05
03:04
zxc



gudabola
LOL
HEHE
LOL2
ELSE
LOL4
lol foo haha lol bar haha lol baz haha 


").
Proof. vm_compute. reflexivity. Qed.

Example test_render_listing :
  rendered (B "foo
{% block listing_once %}fuuu{% endblock %}
{% block entry %}
{% ifdef GUDA %}{{ GUDA }}{% endif %}
{% ifdef CHUNDA %}{{ CHUNDA }}{% endif %}
{% endblock %}
{% block listing %}
{% ifdef DATE_FORMATTED %}{{ DATE_FORMATTED }}{% endif %}
bola: {% ifdef BOLA %}{{ BOLA }}{% endif %}
{% foreach TAGS %}lol {{ FOREACH_ITEM }} haha {% endforeach %}
{% foreach TAGS_ASD %}yay{% endforeach %}
{% endblock %}
{% block listing_empty %}vazio{% endblock %}
")
    [source1; source2; source3] true [] trie_new =
  Some (B "foo
fuuu


03:04
bola: asd
lol foo haha lol bar haha lol baz haha 


2014-02-03 04:05:06
bola: asd2



2013-01-02 03:04:05
bola: asd3




").
Proof. vm_compute. reflexivity. Qed.

Example test_render_listing_entry :
  rendered (B "foo
{% block listing_once %}fuuu{% endblock %}
{% block entry %}
{% ifdef GUDA %}{{ GUDA }}{% endif %}
{% ifdef CHUNDA %}{{ CHUNDA }}{% endif %}
{% endblock %}
{% block listing_entry %}asd{% endblock %}
{% block listing %}
{% ifdef DATE_FORMATTED %}{{ DATE_FORMATTED }}{% endif %}
bola: {% ifdef BOLA %}{{ BOLA }}{% endif %}
{% foreach TAGS %}lol {{ FOREACH_ITEM }} haha {% endforeach %}
{% foreach TAGS_ASD %}yay{% endforeach %}
{% endblock %}
{% block listing_empty %}vazio{% endblock %}
")
    [source1; source2; source3] true [] trie_new =
  Some (B "foo
fuuu



03:04
bola: asd
lol foo haha lol bar haha lol baz haha 


2014-02-03 04:05:06
bola: asd2



2013-01-02 03:04:05
bola: asd3




").
Proof. vm_compute. reflexivity. Qed.

Example test_render_listing_entry2 :
  rendered (B "foo
{% block listing_once %}fuuu{% endblock %}
{% block entry %}
{% ifdef GUDA %}{{ GUDA }}{% endif %}
{% ifdef CHUNDA %}{{ CHUNDA }}{% endif %}
{% endblock %}
{% block listing_entry %}{{ FUUUUU }}{% endblock %}
{% block listing_entry %}{{ BAAAAA }}{% endblock %}
{% block listing %}
{% ifdef DATE_FORMATTED %}{{ DATE_FORMATTED }}{% endif %}
bola: {% ifdef BOLA %}{{ BOLA }}{% endif %}
{% foreach TAGS %}lol {{ FOREACH_ITEM }} haha {% endforeach %}
{% foreach TAGS_ASD %}yay{% endforeach %}
{% endblock %}
{% block listing_empty %}vazio{% endblock %}
")
    [source1; source2; source3] true [Some (entries [(B "FUUUUU", (B "XD")); (B "BAAAAA", (B ":p"))])] trie_new =
  Some (B "foo
fuuu

XD


03:04
bola: asd
lol foo haha lol bar haha lol baz haha 


2014-02-03 04:05:06
bola: asd2



2013-01-02 03:04:05
bola: asd3




").
Proof. vm_compute. reflexivity. Qed.

Example test_render_listing_entry3 :
  rendered (B "foo
{% block listing_once %}fuuu{% endblock %}
{% block entry %}
{% ifdef GUDA %}{{ GUDA }}{% endif %}
{% ifdef CHUNDA %}{{ CHUNDA }}{% endif %}
{% endblock %}
{% block listing_entry %}{{ FUUUUU }}{% endblock %}
{% block listing_entry %}{{ BAAAAA }}{% endblock %}
{% block listing %}
{% ifdef DATE_FORMATTED %}{{ DATE_FORMATTED }}{% endif %}
bola: {% ifdef BOLA %}{{ BOLA }}{% endif %}
{% foreach TAGS %}lol {{ FOREACH_ITEM }} haha {% endforeach %}
{% foreach TAGS_ASD %}yay{% endforeach %}
{% endblock %}
{% block listing_empty %}vazio{% endblock %}
")
    [source1; source2; source3] true [None; Some (entries [(B "FUUUUU", (B "XD")); (B "BAAAAA", (B ":p"))])] trie_new =
  Some (B "foo
fuuu


:p

03:04
bola: asd
lol foo haha lol bar haha lol baz haha 


2014-02-03 04:05:06
bola: asd2



2013-01-02 03:04:05
bola: asd3




").
Proof. vm_compute. reflexivity. Qed.

Example test_render_listing_entry4 :
  rendered (B "foo
{% block listing_once %}fuuu{% endblock %}
{% block entry %}
{% ifdef GUDA %}{{ GUDA }}{% endif %}
{% ifdef CHUNDA %}{{ CHUNDA }}{% endif %}
{% endblock %}
{% block listing_entry %}{{ FUUUUU }}{% endblock %}
{% block listing_entry %}{{ DDDDDD }}{% endblock %}
{% block listing %}
{% ifdef DATE_FORMATTED %}{{ DATE_FORMATTED }}{% endif %}
bola: {% ifdef BOLA %}{{ BOLA }}{% endif %}
{% foreach TAGS %}lol {{ FOREACH_ITEM }} haha {% endforeach %}
{% foreach TAGS_ASD %}yay{% endforeach %}
{% endblock %}
{% block listing_empty %}vazio{% endblock %}
")
    [source1; source2; source3] true [Some (entries [(B "FUUUUU", (B "XD")); (B "BAAAAA", (B ":p"))]); Some (entries [(B "CCCCCC", (B "er")); (B "DDDDDD", (B "ty"))])] trie_new =
  Some (B "foo
fuuu

XD
ty

03:04
bola: asd
lol foo haha lol bar haha lol baz haha 


2014-02-03 04:05:06
bola: asd2



2013-01-02 03:04:05
bola: asd3




").
Proof. vm_compute. reflexivity. Qed.

Example test_render_listing_empty :
  rendered (B "foo
{% block listing_once %}fuuu{% endblock %}
{% block entry %}
{% ifdef GUDA %}{{ GUDA }}{% endif %}
{% ifdef CHUNDA %}{{ CHUNDA }}{% endif %}
{% endblock %}
{% block listing %}
{% ifdef DATE_FORMATTED %}{{ DATE_FORMATTED }}{% endif %}
bola: {% ifdef BOLA %}{{ BOLA }}{% endif %}
{% foreach TAGS %}lol {{ FOREACH_ITEM }} haha {% endforeach %}
{% endblock %}
{% block listing_empty %}vazio{% endblock %}
")
    [] true [] trie_new =
  Some (B "foo
fuuu


vazio
").
Proof. vm_compute. reflexivity. Qed.

Example test_render_ifdef :
  rendered (B "{% block entry %}
{% ifdef CHUNDA %}chunda
{% ifdef GUDA %}guda
{% ifdef BOLA %}bola
{% endif %}
{% endif %}
{% endif %}
{% endblock %}
")
    [source1] false [] trie_new =
  Some (B "


").
Proof. vm_compute. reflexivity. Qed.

Example test_render_ifdef2 :
  rendered (B "{% block entry %}
{% ifdef GUDA %}guda
{% ifdef CHUNDA %}chunda
{% ifdef BOLA %}bola
{% endif %}
{% endif %}
{% endif %}
{% endblock %}
")
    [source1] false [] trie_new =
  Some (B "
guda



").
Proof. vm_compute. reflexivity. Qed.

Example test_render_ifdef3 :
  rendered (B "{% block entry %}
{% ifdef GUDA %}guda
{% ifdef BOLA %}bola
{% ifdef CHUNDA %}chunda
{% endif %}
{% endif %}
{% endif %}
{% endblock %}
")
    [source1] false [] trie_new =
  Some (B "
guda
bola




").
Proof. vm_compute. reflexivity. Qed.

Example test_render_ifdef4 :
  rendered (B "{% block entry %}
{% ifdef GUDA %}guda
{% ifdef BOLA %}bola
{% ifdef CHUNDA %}chunda
{% else %}else
{% endif %}
{% endif %}
{% else %}lol
{% endif %}
{% endblock %}
")
    [source1] false [] trie_new =
  Some (B "
guda
bola
else




").
Proof. vm_compute. reflexivity. Qed.

Example test_render_ifdef5 :
  rendered (B "{% block entry %}
{% ifdef GUDA %}guda
{% ifdef CHUNDA %}chunda
{% ifdef BOLA %}bola
{% endif %}
{% else %}else
{% endif %}
{% else %}lol
{% endif %}
{% endblock %}
")
    [source1] false [] trie_new =
  Some (B "
guda
else



").
Proof. vm_compute. reflexivity. Qed.

Example test_render_ifdef6 :
  rendered (B "{% block entry %}
{% ifdef CHUNDA %}chunda
{% ifdef GUDA %}guda
{% ifdef BOLA %}bola
{% endif %}
{% else %}else
{% endif %}
{% else %}lol
{% endif %}
{% endblock %}
")
    [source1] false [] trie_new =
  Some (B "
lol


").
Proof. vm_compute. reflexivity. Qed.

Example test_render_ifdef7 :
  rendered (B "{% block entry %}
{% ifdef GUDA %}guda
{% ifdef BOLA %}bola
{% ifdef CHUNDA %}chunda
{% endif %}
{% endif %}
{% ifdef CHUNDA %}ch
{% else %}else
{% endif %}
{% endif %}
{% endblock %}
")
    [source1] false [] trie_new =
  Some (B "
guda
bola


else



").
Proof. vm_compute. reflexivity. Qed.

Example test_render_ifndef :
  rendered (B "{% block entry %}
{% ifndef CHUNDA %}chunda
{% ifdef GUDA %}guda
{% ifndef BOLA %}bola
{% else %}else
{% endif %}
{% endif %}
{% endif %}
{% endblock %}
")
    [source1] false [] trie_new =
  Some (B "
chunda
guda
else




").
Proof. vm_compute. reflexivity. Qed.

Example test_render_if_eq :
  rendered (B "{% block entry %}
{% if GUDA == GUDA2 %}gudabola{% endif %}
{% if GUDA == ""zxc"" %}guda
{% ifdef BOLA %}bola
{% if GUDA > ""zxc"" %}asd
{% else %}else
{% endif %}
{% endif %}
{% endif %}
{% endblock %}
")
    [source1] false [] trie_new =
  Some (B "
gudabola
guda
bola
else




").
Proof. vm_compute. reflexivity. Qed.

Example test_render_if_neq :
  rendered (B "{% block entry %}
{% if GUDA != BOLA %}gudabola{% endif %}
{% if GUDA != ""zxa"" %}guda
{% ifdef BOLA %}bola
{% if GUDA > ""zxc"" %}asd
{% else %}else
{% endif %}
{% endif %}
{% endif %}
{% endblock %}
")
    [source1] false [] trie_new =
  Some (B "
gudabola
guda
bola
else




").
Proof. vm_compute. reflexivity. Qed.

Example test_render_if_lt :
  rendered (B "{% block entry %}
{% if BOLA < GUDA %}gudabola{% endif %}
{% if GUDA < ""zxe"" %}guda
{% ifdef BOLA %}bola
{% if GUDA > ""zxc"" %}asd
{% else %}else
{% endif %}
{% endif %}
{% endif %}
{% endblock %}
")
    [source1] false [] trie_new =
  Some (B "
gudabola
guda
bola
else




").
Proof. vm_compute. reflexivity. Qed.

Example test_render_if_gt :
  rendered (B "{% block entry %}
{% if GUDA > BOLA %}gudabola{% endif %}
{% if GUDA > ""zxa"" %}guda
{% ifdef BOLA %}bola
{% if GUDA > ""zxc"" %}asd
{% else %}else
{% endif %}
{% endif %}
{% endif %}
{% endblock %}
")
    [source1] false [] trie_new =
  Some (B "
gudabola
guda
bola
else




").
Proof. vm_compute. reflexivity. Qed.

Example test_render_if_lt_eq :
  rendered (B "{% block entry %}
{% if BOLA <= GUDA %}gudabola{% endif %}
{% if GUDA <= ""zxc"" %}guda
{% if GUDA <= ""zxe"" %}guda2
{% ifdef BOLA %}bola
{% if GUDA > ""zxc"" %}asd
{% else %}else
{% endif %}
{% endif %}
{% endif %}
{% endif %}
{% endblock %}
")
    [source1] false [] trie_new =
  Some (B "
gudabola
guda
guda2
bola
else





").
Proof. vm_compute. reflexivity. Qed.

Example test_render_if_gt_eq :
  rendered (B "{% block entry %}
{% if GUDA >= BOLA %}gudabola{% endif %}
{% if GUDA >= ""zxc"" %}guda
{% if GUDA >= ""zxa"" %}guda2
{% ifdef BOLA %}bola
{% if GUDA > ""zxc"" %}asd
{% else %}else
{% endif %}
{% endif %}
{% endif %}
{% endif %}
{% endblock %}
")
    [source1] false [] trie_new =
  Some (B "
gudabola
guda
guda2
bola
else





").
Proof. vm_compute. reflexivity. Qed.

Example test_render_foreach :
  rendered (B "{% block entry %}
{% foreach TAGS %} {{ FOREACH_ITEM }} {% endforeach %}
{% endblock %}
")
    [source1] false [] trie_new =
  Some (B "
 foo  bar  baz 

").
Proof. vm_compute. reflexivity. Qed.

Example test_render_foreach_if :
  rendered (B "{% block entry %}
{% foreach TAGS %} {% if FOREACH_ITEM == ""bar"" %}{{ FOREACH_ITEM }}{% endif %} {% endforeach %}
{% endblock %}
")
    [source1] false [] trie_new =
  Some (B "
   bar   

").
Proof. vm_compute. reflexivity. Qed.

Example test_render_foreach_if_else :
  rendered (B "{% block entry %}
{% foreach TAGS %}{% if FOREACH_ITEM == ""bar"" %}yay{% else %}{{ FOREACH_ITEM }}{% endif %} {% endforeach %}
{% endblock %}
")
    [source1] false [] trie_new =
  Some (B "
foo yay baz 

").
Proof. vm_compute. reflexivity. Qed.

Example test_render_outside_block :
  rendered (B "{% ifdef GUDA %}bola{% endif %}
{{ BOLA }}
{% ifndef CHUNDA %}lol{% endif %}
")
    [source1] false [] (entries [(B "GUDA", (B "asd"))]) =
  Some (B "bola

lol
").
Proof. vm_compute. reflexivity. Qed.

Example test_render_prefer_local_variable :
  rendered (B "{% block entry %}
{% ifdef LOL %}{{ LOL }}{% endif %}
{% ifndef CHUNDA %}chunda
{% ifdef GUDA %}{{ GUDA }}
{% ifndef BOLA %}bola
{% endif %}
{% endif %}
{% endif %}
{% endblock %}
")
    [source1] false [] (entries [(B "GUDA", (B "hehe")); (B "LOL", (B "hmm"))]) =
  Some (B "
hmm
chunda
zxc




").
Proof. vm_compute. reflexivity. Qed.

Example test_render_respect_variable_scope :
  rendered (B "{{ LOL }}
{{ BOLA }}
{% block entry %}
{% ifdef LOL %}{{ LOL }}{% endif %}
{% ifdef BOLA %}{{ BOLA }}{% endif %}
{% endblock %}
")
    [source1] false [] trie_new =
  Some (B "



asd

").
Proof. vm_compute. reflexivity. Qed.

Example test_render_ifcount_bug :
  rendered (B "{% block entry %}
{% ifdef TITLE %}<h3>{{ TITLE }}</h3>{% endif %}
{% ifdef IS_POST %}
{% ifdef ASD %}ASD{% endif %}
{% endif %}
{% endblock %}
")
    [(entries [(B "TITLE", (B "bola"))])] false [] trie_new =
  Some (B "
<h3>bola</h3>


").
Proof. vm_compute. reflexivity. Qed.
