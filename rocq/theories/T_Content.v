(* The expectations of the unit tests of the project (tests/blogc, the parsers of contents and sources and the loader), as
   statements on the model. Written by a program from the C text of the tests: every
   call to a modelled function is replaced by the model, every assertion by an
   equation. Assertions on NULL arguments, on error codes and on functions that are not
   modelled are left out. These are tests of the model, not proofs of properties. *)
From Coq Require Import ZArith DecimalString.
From Verif Require Import Base Utils Trie Toctree Content ErrorPos Source Datetime Loader Rusage T_Blogc.
#[local] Open Scope nat_scope.



Definition lookup_ (t : option (trie bytes)) (k : bytes) : option bytes := match t with Some t => trie_lookup t k | None => None end.
Definition size_ (t : option (trie bytes)) : nat := match t with Some t => trie_size t | None => 0 end.
Definition ok_bytes (x : res bytes) : option bytes := match x with Ok r => Some r | _ => None end.
Definition parsed (o : bopts) (s : bytes) (le : option bytes) : bvars := match content_parse 60 o s le with Ok b => b | _ => bv0 None end.
Definition src_of (r : res (outcome (trie bytes))) : option (trie bytes) := match r with Ok (Good t) => Some t | _ => None end.
Definition src_err (s : bytes) (r : res (outcome (trie bytes))) : option bytes :=
  match r with Ok (Bad e) => Some match se_at e with Some p => near s p (se_msg e) | None => se_msg e end | _ => None end.
(* bc_file_get_contents *)
Fixpoint disk (l : list (bytes * bytes)) (f : bytes) : option bytes :=
  match l with [] => None | (p, t) :: r => if beq p f then Some t else disk r f end.
Definition loaded_of (r : res (loaded (trie bytes))) : option (trie bytes) := match r with Ok (Loaded t) => Some t | _ => None end.
Definition listing_of (r : res (loaded (list (trie bytes) * trie bytes))) : list (trie bytes) := match r with Ok (Loaded (l, _)) => l | _ => [] end.
Definition listing_conf (c : trie bytes) (r : res (loaded (list (trie bytes) * trie bytes))) : option (trie bytes) := match r with Ok (Loaded (_, c)) => Some c | _ => Some c end.
(* loader.c: the texts of the messages *)
Definition lerror_text (e : lerror) : bytes :=
  match e with
  | LSource f (Some e) => B "An error occurred while parsing source file: " ++ f ++ [LF; LF] ++ se_msg e
  | LSource f None => B "An error occurred while parsing source file: " ++ f ++ [LF; LF]
  | LNoDate f => B "'FILTER_SORT' requires that 'DATE' variable is set for every source file: " ++ f
  | LBadDate f e => B "An error occurred while parsing 'DATE' variable: " ++ f ++ [LF; LF] ++ dt_text [] [] e
  | LMixed => B "'DATE' variable provided for at least one source file, but not for all source files. It must be provided for all files."
  end.
Definition listing_err (r : res (loaded (list (trie bytes) * trie bytes))) : option bytes :=
  match r with Ok (Failed e) => Some (lerror_text e) | _ => None end.

(* ---------- tests/blogc/check_content_parser.c ---------- *)

Example test_slugify :
  Some (slugify (B "bola")) = Some (B "bola") /\
  Some (slugify (B "bola o")) = Some (B "bola-o") /\
  Some (slugify (B "Bola O")) = Some (B "bola-o") /\
  Some (slugify (B "bola 0")) = Some (B "bola-0") /\
  Some (slugify (B "bola  () o")) = Some (B "bola-----o") /\
  Some (slugify (B "bola" ++ ["195"%char] ++ ["167"%char] ++ B "o")) = Some (B "bola--o").
Proof. tests. Qed.

Example test_htmlentities :
  Some (htmlentities (B "asdxcv & < > "" 'sfd/gf")) = Some (B "asdxcv &amp; &lt; &gt; &quot; &#x27;sfd&#x2F;gf").
Proof. tests. Qed.

Example test_fix_description :
  Some (fix_description (B "bola")) = Some (B "bola") /\
  Some (fix_description (B "bola
")) = Some (B "bola") /\
  Some (fix_description (B "bola" ++ [CR] ++ B "
")) = Some (B "bola") /\
  Some (fix_description (B "bola
guda")) = Some (B "bola guda") /\
  Some (fix_description (B "bola
guda
")) = Some (B "bola guda") /\
  Some (fix_description (B "bola" ++ [CR] ++ B "
guda" ++ [CR] ++ B "
")) = Some (B "bola guda") /\
  Some (fix_description (B "bola
   guda   lol
 asd")) = Some (B "bola guda   lol asd") /\
  Some (fix_description (B "bola
   guda   lol
 asd
")) = Some (B "bola guda   lol asd") /\
  Some (fix_description (B "bola" ++ [CR] ++ B "
   guda   lol" ++ [CR] ++ B "
 asd" ++ [CR] ++ B "
")) = Some (B "bola guda   lol asd") /\
  Some (fix_description (B "  bola
   guda   lol
 asd")) = Some (B "bola guda   lol asd") /\
  Some (fix_description (B "  bola
   guda   lol
 asd
")) = Some (B "bola guda   lol asd") /\
  Some (fix_description (B "  bola" ++ [CR] ++ B "
   guda   lol" ++ [CR] ++ B "
 asd" ++ [CR] ++ B "
")) = Some (B "bola guda   lol asd") /\
  Some (fix_description (B "b'o""l<>a")) = Some (B "b&#x27;o&quot;l&lt;&gt;a").
Proof. tests. Qed.

Example test_is_ordered_list_item :
  is_ordered_item (B "1.bola") 2 = true /\
  is_ordered_item (B "1. bola") 3 = true /\
  is_ordered_item (B "12. bola") 4 = true /\
  is_ordered_item (B "123. bola") 5 = true /\
  is_ordered_item (B "1.    bola") 6 = true /\
  is_ordered_item (B "1.    bola") 5 = true /\
  is_ordered_item (B "1bola") 1 = false /\
  is_ordered_item (B "12bola") 2 = false /\
  is_ordered_item (B "1 .   bola") 6 = false /\
  is_ordered_item (B "1.   bola") 6 = false /\
  is_ordered_item (B "1.") 2 = false.
Proof. tests. Qed.

Definition test_content_parse_text1 : bytes := B "# um
## dois
### tres
#### quatro
##### cinco
###### seis

bola
chunda

>  bola  
>  guda
>  buga
>  
>    asd

    <asd>bola</asd>
     asd
    qwewer

+++
1. chunda
3. fuuuu

-  chunda2
-  fuuuu2

<style>
   chunda
</style>

guda
yay

**bola**
-- foo-bar
--- bar

-- asd

--- lol
".
Example test_content_parse :
  b_exc (parsed (BO true true true true) test_content_parse_text1 None) = 0 /\
  isnone (b_fh (parsed (BO true true true true) test_content_parse_text1 None)) = false /\
  b_fh (parsed (BO true true true true) test_content_parse_text1 None) = Some (B "um") /\
  isnone (b_desc (parsed (BO true true true true) test_content_parse_text1 None)) = false /\
  b_desc (parsed (BO true true true true) test_content_parse_text1 None) = Some (B "bola chunda") /\
  Some (b_le (parsed (BO true true true true) test_content_parse_text1 None)) = Some (B "
") /\
  Nat.leb (length (b_hdrs (parsed (BO true true true true) test_content_parse_text1 None))) 0 = false /\
  length (b_hdrs (parsed (BO true true true true) test_content_parse_text1 None)) = 6 /\
  Some (b_rv (parsed (BO true true true true) test_content_parse_text1 None)) = Some (B "<h1 id=""um"">um</h1>
<h2 id=""dois"">dois</h2>
<h3 id=""tres"">tres</h3>
<h4 id=""quatro"">quatro</h4>
<h5 id=""cinco"">cinco</h5>
<h6 id=""seis"">seis</h6>
<p>bola
chunda</p>
<blockquote><p>bola<br />
guda
buga</p>
<pre><code>asd</code></pre>
</blockquote>
<pre><code>&lt;asd&gt;bola&lt;&#x2F;asd&gt;
 asd
qwewer</code></pre>
<hr />
<ol>
<li>chunda</li>
<li>fuuuu</li>
</ol>
<ul>
<li>chunda2</li>
<li>fuuuu2</li>
</ul>
<style>
   chunda
</style>
<p>guda
yay</p>
<p><strong>bola</strong>
&ndash; foo-bar
&mdash; bar</p>
<p>&ndash; asd</p>
<p>&mdash; lol</p>
").
Proof. tests. Qed.

Definition test_content_parse_crlf_text1 : bytes := B "# um" ++ [CR] ++ B "
## dois" ++ [CR] ++ B "
### tres" ++ [CR] ++ B "
#### quatro" ++ [CR] ++ B "
##### cinco" ++ [CR] ++ B "
###### seis" ++ [CR] ++ B "
" ++ [CR] ++ B "
bola" ++ [CR] ++ B "
chunda" ++ [CR] ++ B "
" ++ [CR] ++ B "
>  bola  " ++ [CR] ++ B "
>  guda" ++ [CR] ++ B "
>  buga" ++ [CR] ++ B "
>  " ++ [CR] ++ B "
>    asd" ++ [CR] ++ B "
" ++ [CR] ++ B "
    <asd>bola</asd>" ++ [CR] ++ B "
     asd" ++ [CR] ++ B "
    qwewer" ++ [CR] ++ B "
" ++ [CR] ++ B "
+++" ++ [CR] ++ B "
1. chunda" ++ [CR] ++ B "
3. fuuuu" ++ [CR] ++ B "
" ++ [CR] ++ B "
+  chunda2" ++ [CR] ++ B "
+  fuuuu2" ++ [CR] ++ B "
" ++ [CR] ++ B "
<style>" ++ [CR] ++ B "
   chunda" ++ [CR] ++ B "
</style>" ++ [CR] ++ B "
" ++ [CR] ++ B "
guda" ++ [CR] ++ B "
yay" ++ [CR] ++ B "
" ++ [CR] ++ B "
**bola**" ++ [CR] ++ B "
-- foo-bar" ++ [CR] ++ B "
--- bar" ++ [CR] ++ B "
" ++ [CR] ++ B "
-- asd" ++ [CR] ++ B "
" ++ [CR] ++ B "
--- lol" ++ [CR] ++ B "
".
Example test_content_parse_crlf :
  b_exc (parsed (BO true true true true) test_content_parse_crlf_text1 None) = 0 /\
  isnone (b_fh (parsed (BO true true true true) test_content_parse_crlf_text1 None)) = false /\
  b_fh (parsed (BO true true true true) test_content_parse_crlf_text1 None) = Some (B "um") /\
  isnone (b_desc (parsed (BO true true true true) test_content_parse_crlf_text1 None)) = false /\
  b_desc (parsed (BO true true true true) test_content_parse_crlf_text1 None) = Some (B "bola chunda") /\
  Some (b_le (parsed (BO true true true true) test_content_parse_crlf_text1 None)) = Some ([CR] ++ B "
") /\
  Nat.leb (length (b_hdrs (parsed (BO true true true true) test_content_parse_crlf_text1 None))) 0 = false /\
  length (b_hdrs (parsed (BO true true true true) test_content_parse_crlf_text1 None)) = 6 /\
  Some (b_rv (parsed (BO true true true true) test_content_parse_crlf_text1 None)) = Some (B "<h1 id=""um"">um</h1>" ++ [CR] ++ B "
<h2 id=""dois"">dois</h2>" ++ [CR] ++ B "
<h3 id=""tres"">tres</h3>" ++ [CR] ++ B "
<h4 id=""quatro"">quatro</h4>" ++ [CR] ++ B "
<h5 id=""cinco"">cinco</h5>" ++ [CR] ++ B "
<h6 id=""seis"">seis</h6>" ++ [CR] ++ B "
<p>bola" ++ [CR] ++ B "
chunda</p>" ++ [CR] ++ B "
<blockquote><p>bola<br />" ++ [CR] ++ B "
guda" ++ [CR] ++ B "
buga</p>" ++ [CR] ++ B "
<pre><code>asd</code></pre>" ++ [CR] ++ B "
</blockquote>" ++ [CR] ++ B "
<pre><code>&lt;asd&gt;bola&lt;&#x2F;asd&gt;" ++ [CR] ++ B "
 asd" ++ [CR] ++ B "
qwewer</code></pre>" ++ [CR] ++ B "
<hr />" ++ [CR] ++ B "
<ol>" ++ [CR] ++ B "
<li>chunda</li>" ++ [CR] ++ B "
<li>fuuuu</li>" ++ [CR] ++ B "
</ol>" ++ [CR] ++ B "
<ul>" ++ [CR] ++ B "
<li>chunda2</li>" ++ [CR] ++ B "
<li>fuuuu2</li>" ++ [CR] ++ B "
</ul>" ++ [CR] ++ B "
<style>" ++ [CR] ++ B "
   chunda" ++ [CR] ++ B "
</style>" ++ [CR] ++ B "
<p>guda" ++ [CR] ++ B "
yay</p>" ++ [CR] ++ B "
<p><strong>bola</strong>" ++ [CR] ++ B "
&ndash; foo-bar" ++ [CR] ++ B "
&mdash; bar</p>" ++ [CR] ++ B "
<p>&ndash; asd</p>" ++ [CR] ++ B "
<p>&mdash; lol</p>" ++ [CR] ++ B "
").
Proof. tests. Qed.

Definition test_content_parse_with_excerpt_text1 : bytes := B "<h1 id=""test"">test</h1>
<p>chunda</p>
<p>guda
lol</p>
".
Example test_content_parse_with_excerpt :
  b_exc (parsed (BO true true true true) (B "# test

chunda

..

guda
lol") None) = 38 /\
  isnone (b_fh (parsed (BO true true true true) (B "# test

chunda

..

guda
lol") None)) = false /\
  b_fh (parsed (BO true true true true) (B "# test

chunda

..

guda
lol") None) = Some (B "test") /\
  isnone (b_desc (parsed (BO true true true true) (B "# test

chunda

..

guda
lol") None)) = false /\
  b_desc (parsed (BO true true true true) (B "# test

chunda

..

guda
lol") None) = Some (B "chunda") /\
  Some (b_le (parsed (BO true true true true) (B "# test

chunda

..

guda
lol") None)) = Some (B "
") /\
  Nat.leb (length (b_hdrs (parsed (BO true true true true) (B "# test

chunda

..

guda
lol") None))) 0 = false /\
  length (b_hdrs (parsed (BO true true true true) (B "# test

chunda

..

guda
lol") None)) = 1 /\
  Some (b_rv (parsed (BO true true true true) (B "# test

chunda

..

guda
lol") None)) = Some test_content_parse_with_excerpt_text1 /\
  b_exc (parsed (BO true true true true) (B "# test

chunda

...

guda
lol") None) = 38 /\
  isnone (b_fh (parsed (BO true true true true) (B "# test

chunda

...

guda
lol") None)) = false /\
  b_fh (parsed (BO true true true true) (B "# test

chunda

...

guda
lol") None) = Some (B "test") /\
  isnone (b_desc (parsed (BO true true true true) (B "# test

chunda

...

guda
lol") None)) = false /\
  b_desc (parsed (BO true true true true) (B "# test

chunda

...

guda
lol") None) = Some (B "chunda") /\
  Some (b_le (parsed (BO true true true true) (B "# test

chunda

...

guda
lol") None)) = Some (B "
") /\
  Nat.leb (length (b_hdrs (parsed (BO true true true true) (B "# test

chunda

...

guda
lol") None))) 0 = false /\
  length (b_hdrs (parsed (BO true true true true) (B "# test

chunda

...

guda
lol") None)) = 1 /\
  Some (b_rv (parsed (BO true true true true) (B "# test

chunda

...

guda
lol") None)) = Some test_content_parse_with_excerpt_text1.
Proof. tests. Qed.

Definition test_content_parse_with_excerpt_crlf_text1 : bytes := B "# test" ++ [CR] ++ B "
" ++ [CR] ++ B "
chunda" ++ [CR] ++ B "
" ++ [CR] ++ B "
.." ++ [CR] ++ B "
" ++ [CR] ++ B "
guda" ++ [CR] ++ B "
lol".
Definition test_content_parse_with_excerpt_crlf_text2 : bytes := B "<h1 id=""test"">test</h1>" ++ [CR] ++ B "
<p>chunda</p>" ++ [CR] ++ B "
<p>guda" ++ [CR] ++ B "
lol</p>" ++ [CR] ++ B "
".
Definition test_content_parse_with_excerpt_crlf_text3 : bytes := B "# test" ++ [CR] ++ B "
" ++ [CR] ++ B "
chunda" ++ [CR] ++ B "
" ++ [CR] ++ B "
..." ++ [CR] ++ B "
" ++ [CR] ++ B "
guda" ++ [CR] ++ B "
lol".
Example test_content_parse_with_excerpt_crlf :
  b_exc (parsed (BO true true true true) test_content_parse_with_excerpt_crlf_text1 None) = 40 /\
  isnone (b_fh (parsed (BO true true true true) test_content_parse_with_excerpt_crlf_text1 None)) = false /\
  b_fh (parsed (BO true true true true) test_content_parse_with_excerpt_crlf_text1 None) = Some (B "test") /\
  isnone (b_desc (parsed (BO true true true true) test_content_parse_with_excerpt_crlf_text1 None)) = false /\
  b_desc (parsed (BO true true true true) test_content_parse_with_excerpt_crlf_text1 None) = Some (B "chunda") /\
  Some (b_le (parsed (BO true true true true) test_content_parse_with_excerpt_crlf_text1 None)) = Some ([CR] ++ B "
") /\
  Nat.leb (length (b_hdrs (parsed (BO true true true true) test_content_parse_with_excerpt_crlf_text1 None))) 0 = false /\
  length (b_hdrs (parsed (BO true true true true) test_content_parse_with_excerpt_crlf_text1 None)) = 1 /\
  Some (b_rv (parsed (BO true true true true) test_content_parse_with_excerpt_crlf_text1 None)) = Some test_content_parse_with_excerpt_crlf_text2 /\
  b_exc (parsed (BO true true true true) test_content_parse_with_excerpt_crlf_text3 None) = 40 /\
  isnone (b_fh (parsed (BO true true true true) test_content_parse_with_excerpt_crlf_text3 None)) = false /\
  b_fh (parsed (BO true true true true) test_content_parse_with_excerpt_crlf_text3 None) = Some (B "test") /\
  isnone (b_desc (parsed (BO true true true true) test_content_parse_with_excerpt_crlf_text3 None)) = false /\
  b_desc (parsed (BO true true true true) test_content_parse_with_excerpt_crlf_text3 None) = Some (B "chunda") /\
  Some (b_le (parsed (BO true true true true) test_content_parse_with_excerpt_crlf_text3 None)) = Some ([CR] ++ B "
") /\
  Nat.leb (length (b_hdrs (parsed (BO true true true true) test_content_parse_with_excerpt_crlf_text3 None))) 0 = false /\
  length (b_hdrs (parsed (BO true true true true) test_content_parse_with_excerpt_crlf_text3 None)) = 1 /\
  Some (b_rv (parsed (BO true true true true) test_content_parse_with_excerpt_crlf_text3 None)) = Some test_content_parse_with_excerpt_crlf_text2.
Proof. tests. Qed.

Example test_content_parse_header :
  Some (b_rv (parsed (BO false false false false) (B "## bola") None)) = Some (B "<h2 id=""bola"">bola</h2>
") /\
  Some (b_rv (parsed (BO false false false false) (B "## bola
") None)) = Some (B "<h2 id=""bola"">bola</h2>
") /\
  Some (b_rv (parsed (BO false false false false) (B "bola

## bola

guda
") None)) = Some (B "<p>bola</p>
<h2 id=""bola"">bola</h2>
<p>guda</p>
").
Proof. tests. Qed.

Example test_content_parse_header_crlf :
  Some (b_rv (parsed (BO false false false false) (B "## bola") None)) = Some (B "<h2 id=""bola"">bola</h2>
") /\
  Some (b_rv (parsed (BO false false false false) (B "## bola" ++ [CR] ++ B "
") None)) = Some (B "<h2 id=""bola"">bola</h2>" ++ [CR] ++ B "
") /\
  Some (b_rv (parsed (BO false false false false) (B "bola" ++ [CR] ++ B "
" ++ [CR] ++ B "
## bola" ++ [CR] ++ B "
" ++ [CR] ++ B "
guda" ++ [CR] ++ B "
") None)) = Some (B "<p>bola</p>" ++ [CR] ++ B "
<h2 id=""bola"">bola</h2>" ++ [CR] ++ B "
<p>guda</p>" ++ [CR] ++ B "
").
Proof. tests. Qed.

Example test_content_parse_html :
  Some (b_rv (parsed (BO false false false false) (B "<div>
</div>") None)) = Some (B "<div>
</div>
") /\
  Some (b_rv (parsed (BO false false false false) (B "<div>
</div>
") None)) = Some (B "<div>
</div>
") /\
  Some (b_rv (parsed (BO false false false false) (B "bola

<div>
</div>

chunda
") None)) = Some (B "<p>bola</p>
<div>
</div>
<p>chunda</p>
").
Proof. tests. Qed.

Definition test_content_parse_html_crlf_text1 : bytes := B "<div>" ++ [CR] ++ B "
</div>" ++ [CR] ++ B "
".
Example test_content_parse_html_crlf :
  Some (b_rv (parsed (BO false false false false) (B "<div>" ++ [CR] ++ B "
</div>") None)) = Some test_content_parse_html_crlf_text1 /\
  Some (b_rv (parsed (BO false false false false) test_content_parse_html_crlf_text1 None)) = Some test_content_parse_html_crlf_text1 /\
  Some (b_rv (parsed (BO false false false false) (B "bola" ++ [CR] ++ B "
" ++ [CR] ++ B "
<div>" ++ [CR] ++ B "
</div>" ++ [CR] ++ B "
" ++ [CR] ++ B "
chunda" ++ [CR] ++ B "
") None)) = Some (B "<p>bola</p>" ++ [CR] ++ B "
<div>" ++ [CR] ++ B "
</div>" ++ [CR] ++ B "
<p>chunda</p>" ++ [CR] ++ B "
").
Proof. tests. Qed.

Example test_content_parse_blockquote :
  Some (b_rv (parsed (BO false false false false) (B ">  bola
>  guda") None)) = Some (B "<blockquote><p>bola
guda</p>
</blockquote>
") /\
  Some (b_rv (parsed (BO false false false false) (B ">  bola
>  guda
") None)) = Some (B "<blockquote><p>bola
guda</p>
</blockquote>
") /\
  Some (b_rv (parsed (BO false false false false) (B "bola

>   bola

chunda
") None)) = Some (B "<p>bola</p>
<blockquote><p>bola</p>
</blockquote>
<p>chunda</p>
") /\
  Some (b_rv (parsed (BO false false false false) (B "bola

>   bola
>   guda

chunda
") None)) = Some (B "<p>bola</p>
<blockquote><p>bola
guda</p>
</blockquote>
<p>chunda</p>
").
Proof. tests. Qed.

Definition test_content_parse_blockquote_crlf_text1 : bytes := B "<blockquote><p>bola" ++ [CR] ++ B "
guda</p>" ++ [CR] ++ B "
</blockquote>" ++ [CR] ++ B "
".
Example test_content_parse_blockquote_crlf :
  Some (b_rv (parsed (BO false false false false) (B ">  bola" ++ [CR] ++ B "
>  guda") None)) = Some test_content_parse_blockquote_crlf_text1 /\
  Some (b_rv (parsed (BO false false false false) (B ">  bola" ++ [CR] ++ B "
>  guda" ++ [CR] ++ B "
") None)) = Some test_content_parse_blockquote_crlf_text1 /\
  Some (b_rv (parsed (BO false false false false) (B "bola" ++ [CR] ++ B "
" ++ [CR] ++ B "
>   bola" ++ [CR] ++ B "
" ++ [CR] ++ B "
chunda" ++ [CR] ++ B "
") None)) = Some (B "<p>bola</p>" ++ [CR] ++ B "
<blockquote><p>bola</p>" ++ [CR] ++ B "
</blockquote>" ++ [CR] ++ B "
<p>chunda</p>" ++ [CR] ++ B "
") /\
  Some (b_rv (parsed (BO false false false false) (B "bola" ++ [CR] ++ B "
" ++ [CR] ++ B "
>   bola" ++ [CR] ++ B "
>   guda" ++ [CR] ++ B "
" ++ [CR] ++ B "
chunda" ++ [CR] ++ B "
") None)) = Some (B "<p>bola</p>" ++ [CR] ++ B "
<blockquote><p>bola" ++ [CR] ++ B "
guda</p>" ++ [CR] ++ B "
</blockquote>" ++ [CR] ++ B "
<p>chunda</p>" ++ [CR] ++ B "
").
Proof. tests. Qed.

Example test_content_parse_code :
  Some (b_rv (parsed (BO false false false false) (B "  bola
  guda") None)) = Some (B "<pre><code>bola
guda</code></pre>
") /\
  Some (b_rv (parsed (BO false false false false) (B "  bola
  guda
") None)) = Some (B "<pre><code>bola
guda</code></pre>
") /\
  Some (b_rv (parsed (BO false false false false) (B "bola

   bola
   guda

chunda
") None)) = Some (B "<p>bola</p>
<pre><code>bola
guda</code></pre>
<p>chunda</p>
").
Proof. tests. Qed.

Definition test_content_parse_code_crlf_text1 : bytes := B "<pre><code>bola" ++ [CR] ++ B "
guda</code></pre>" ++ [CR] ++ B "
".
Example test_content_parse_code_crlf :
  Some (b_rv (parsed (BO false false false false) (B "  bola" ++ [CR] ++ B "
  guda") None)) = Some test_content_parse_code_crlf_text1 /\
  Some (b_rv (parsed (BO false false false false) (B "  bola" ++ [CR] ++ B "
  guda" ++ [CR] ++ B "
") None)) = Some test_content_parse_code_crlf_text1 /\
  Some (b_rv (parsed (BO false false false false) (B "bola" ++ [CR] ++ B "
" ++ [CR] ++ B "
   bola" ++ [CR] ++ B "
   guda" ++ [CR] ++ B "
" ++ [CR] ++ B "
chunda" ++ [CR] ++ B "
") None)) = Some (B "<p>bola</p>" ++ [CR] ++ B "
<pre><code>bola" ++ [CR] ++ B "
guda</code></pre>" ++ [CR] ++ B "
<p>chunda</p>" ++ [CR] ++ B "
").
Proof. tests. Qed.

Example test_content_parse_horizontal_rule :
  Some (b_rv (parsed (BO false false false false) (B "bola
guda

***") None)) = Some (B "<p>bola
guda</p>
<hr />
") /\
  Some (b_rv (parsed (BO false false false false) (B "bola
guda

++++") None)) = Some (B "<p>bola
guda</p>
<hr />
") /\
  Some (b_rv (parsed (BO false false false false) (B "bola
guda

---
") None)) = Some (B "<p>bola
guda</p>
<hr />
") /\
  Some (b_rv (parsed (BO false false false false) (B "bola
guda

****
") None)) = Some (B "<p>bola
guda</p>
<hr />
") /\
  Some (b_rv (parsed (BO false false false false) (B "bola

***

chunda
") None)) = Some (B "<p>bola</p>
<hr />
<p>chunda</p>
") /\
  Some (b_rv (parsed (BO false false false false) (B "bola

----

chunda
") None)) = Some (B "<p>bola</p>
<hr />
<p>chunda</p>
").
Proof. tests. Qed.

Definition test_content_parse_horizontal_rule_crlf_text1 : bytes := B "<p>bola" ++ [CR] ++ B "
guda</p>" ++ [CR] ++ B "
<hr />" ++ [CR] ++ B "
".
Definition test_content_parse_horizontal_rule_crlf_text2 : bytes := B "<p>bola</p>" ++ [CR] ++ B "
<hr />" ++ [CR] ++ B "
<p>chunda</p>" ++ [CR] ++ B "
".
Example test_content_parse_horizontal_rule_crlf :
  Some (b_rv (parsed (BO false false false false) (B "bola" ++ [CR] ++ B "
guda" ++ [CR] ++ B "
" ++ [CR] ++ B "
***") None)) = Some test_content_parse_horizontal_rule_crlf_text1 /\
  Some (b_rv (parsed (BO false false false false) (B "bola" ++ [CR] ++ B "
guda" ++ [CR] ++ B "
" ++ [CR] ++ B "
++++") None)) = Some test_content_parse_horizontal_rule_crlf_text1 /\
  Some (b_rv (parsed (BO false false false false) (B "bola" ++ [CR] ++ B "
guda" ++ [CR] ++ B "
" ++ [CR] ++ B "
---" ++ [CR] ++ B "
") None)) = Some test_content_parse_horizontal_rule_crlf_text1 /\
  Some (b_rv (parsed (BO false false false false) (B "bola" ++ [CR] ++ B "
guda" ++ [CR] ++ B "
" ++ [CR] ++ B "
****" ++ [CR] ++ B "
") None)) = Some test_content_parse_horizontal_rule_crlf_text1 /\
  Some (b_rv (parsed (BO false false false false) (B "bola" ++ [CR] ++ B "
" ++ [CR] ++ B "
***" ++ [CR] ++ B "
" ++ [CR] ++ B "
chunda" ++ [CR] ++ B "
") None)) = Some test_content_parse_horizontal_rule_crlf_text2 /\
  Some (b_rv (parsed (BO false false false false) (B "bola" ++ [CR] ++ B "
" ++ [CR] ++ B "
----" ++ [CR] ++ B "
" ++ [CR] ++ B "
chunda" ++ [CR] ++ B "
") None)) = Some test_content_parse_horizontal_rule_crlf_text2.
Proof. tests. Qed.

Definition test_content_parse_unordered_list_text1 : bytes := B "<p>lol</p>
<ul>
<li>asd</li>
<li>qwe</li>
<li>zxc</li>
</ul>
".
Example test_content_parse_unordered_list :
  Some (b_rv (parsed (BO false false false false) (B "lol

*  asd
*  qwe
*  zxc") None)) = Some test_content_parse_unordered_list_text1 /\
  Some (b_rv (parsed (BO false false false false) (B "lol

*  asd
*  qwe
*  zxc
") None)) = Some test_content_parse_unordered_list_text1 /\
  Some (b_rv (parsed (BO false false false false) (B "lol

*  asd
*  qwe
*  zxc

fuuuu
") None)) = Some (B "<p>lol</p>
<ul>
<li>asd</li>
<li>qwe</li>
<li>zxc</li>
</ul>
<p>fuuuu</p>
") /\
  Some (b_rv (parsed (BO false false false false) (B "lol

*  asd
   cvb
*  qwe
*  zxc
   1234

fuuuu
") None)) = Some (B "<p>lol</p>
<ul>
<li>asd
cvb</li>
<li>qwe</li>
<li>zxc
1234</li>
</ul>
<p>fuuuu</p>
") /\
  Some (b_rv (parsed (BO false false false false) (B "*  asd
*   qwe
*    zxc") None)) = Some (B "<ul>
<li>asd</li>
<li> qwe</li>
<li>  zxc</li>
</ul>
").
Proof. tests. Qed.

Definition test_content_parse_unordered_list_crlf_text1 : bytes := B "<p>lol</p>" ++ [CR] ++ B "
<ul>" ++ [CR] ++ B "
<li>asd</li>" ++ [CR] ++ B "
<li>qwe</li>" ++ [CR] ++ B "
<li>zxc</li>" ++ [CR] ++ B "
</ul>" ++ [CR] ++ B "
".
Example test_content_parse_unordered_list_crlf :
  Some (b_rv (parsed (BO false false false false) (B "lol" ++ [CR] ++ B "
" ++ [CR] ++ B "
*  asd" ++ [CR] ++ B "
*  qwe" ++ [CR] ++ B "
*  zxc") None)) = Some test_content_parse_unordered_list_crlf_text1 /\
  Some (b_rv (parsed (BO false false false false) (B "lol" ++ [CR] ++ B "
" ++ [CR] ++ B "
*  asd" ++ [CR] ++ B "
*  qwe" ++ [CR] ++ B "
*  zxc" ++ [CR] ++ B "
") None)) = Some test_content_parse_unordered_list_crlf_text1 /\
  Some (b_rv (parsed (BO false false false false) (B "lol" ++ [CR] ++ B "
" ++ [CR] ++ B "
*  asd" ++ [CR] ++ B "
*  qwe" ++ [CR] ++ B "
*  zxc" ++ [CR] ++ B "
" ++ [CR] ++ B "
fuuuu" ++ [CR] ++ B "
") None)) = Some (B "<p>lol</p>" ++ [CR] ++ B "
<ul>" ++ [CR] ++ B "
<li>asd</li>" ++ [CR] ++ B "
<li>qwe</li>" ++ [CR] ++ B "
<li>zxc</li>" ++ [CR] ++ B "
</ul>" ++ [CR] ++ B "
<p>fuuuu</p>" ++ [CR] ++ B "
") /\
  Some (b_rv (parsed (BO false false false false) (B "lol" ++ [CR] ++ B "
" ++ [CR] ++ B "
*  asd" ++ [CR] ++ B "
   cvb" ++ [CR] ++ B "
*  qwe" ++ [CR] ++ B "
*  zxc" ++ [CR] ++ B "
   1234" ++ [CR] ++ B "
" ++ [CR] ++ B "
fuuuu" ++ [CR] ++ B "
") None)) = Some (B "<p>lol</p>" ++ [CR] ++ B "
<ul>" ++ [CR] ++ B "
<li>asd" ++ [CR] ++ B "
cvb</li>" ++ [CR] ++ B "
<li>qwe</li>" ++ [CR] ++ B "
<li>zxc" ++ [CR] ++ B "
1234</li>" ++ [CR] ++ B "
</ul>" ++ [CR] ++ B "
<p>fuuuu</p>" ++ [CR] ++ B "
") /\
  Some (b_rv (parsed (BO false false false false) (B "*  asd" ++ [CR] ++ B "
*   qwe" ++ [CR] ++ B "
*    zxc") None)) = Some (B "<ul>" ++ [CR] ++ B "
<li>asd</li>" ++ [CR] ++ B "
<li> qwe</li>" ++ [CR] ++ B "
<li>  zxc</li>" ++ [CR] ++ B "
</ul>" ++ [CR] ++ B "
").
Proof. tests. Qed.

Definition test_content_parse_ordered_list_text1 : bytes := B "<p>lol</p>
<ol>
<li>asd</li>
<li>qwe</li>
<li>zxc</li>
</ol>
".
Example test_content_parse_ordered_list :
  Some (b_rv (parsed (BO false false false false) (B "lol

1.  asd
2.  qwe
3.  zxc") None)) = Some test_content_parse_ordered_list_text1 /\
  Some (b_rv (parsed (BO false false false false) (B "lol

1.  asd
2.  qwe
3.  zxc
") None)) = Some test_content_parse_ordered_list_text1 /\
  Some (b_rv (parsed (BO false false false false) (B "lol

1.  asd
2.  qwe
3.  zxc

fuuuu
") None)) = Some (B "<p>lol</p>
<ol>
<li>asd</li>
<li>qwe</li>
<li>zxc</li>
</ol>
<p>fuuuu</p>
") /\
  Some (b_rv (parsed (BO false false false false) (B "lol

1.  asd
    cvb
2.  qwe
3.  zxc
    1234

fuuuu
") None)) = Some (B "<p>lol</p>
<ol>
<li>asd
cvb</li>
<li>qwe</li>
<li>zxc
1234</li>
</ol>
<p>fuuuu</p>
") /\
  Some (b_rv (parsed (BO false false false false) (B "1.  asd
2.   qwe
3.    zxc") None)) = Some (B "<ol>
<li>asd</li>
<li> qwe</li>
<li>  zxc</li>
</ol>
").
Proof. tests. Qed.

Definition test_content_parse_ordered_list_crlf_text1 : bytes := B "<p>lol</p>" ++ [CR] ++ B "
<ol>" ++ [CR] ++ B "
<li>asd</li>" ++ [CR] ++ B "
<li>qwe</li>" ++ [CR] ++ B "
<li>zxc</li>" ++ [CR] ++ B "
</ol>" ++ [CR] ++ B "
".
Example test_content_parse_ordered_list_crlf :
  Some (b_rv (parsed (BO false false false false) (B "lol" ++ [CR] ++ B "
" ++ [CR] ++ B "
1.  asd" ++ [CR] ++ B "
2.  qwe" ++ [CR] ++ B "
3.  zxc") None)) = Some test_content_parse_ordered_list_crlf_text1 /\
  Some (b_rv (parsed (BO false false false false) (B "lol" ++ [CR] ++ B "
" ++ [CR] ++ B "
1.  asd" ++ [CR] ++ B "
2.  qwe" ++ [CR] ++ B "
3.  zxc" ++ [CR] ++ B "
") None)) = Some test_content_parse_ordered_list_crlf_text1 /\
  Some (b_rv (parsed (BO false false false false) (B "lol" ++ [CR] ++ B "
" ++ [CR] ++ B "
1.  asd" ++ [CR] ++ B "
2.  qwe" ++ [CR] ++ B "
3.  zxc" ++ [CR] ++ B "
" ++ [CR] ++ B "
fuuuu" ++ [CR] ++ B "
") None)) = Some (B "<p>lol</p>" ++ [CR] ++ B "
<ol>" ++ [CR] ++ B "
<li>asd</li>" ++ [CR] ++ B "
<li>qwe</li>" ++ [CR] ++ B "
<li>zxc</li>" ++ [CR] ++ B "
</ol>" ++ [CR] ++ B "
<p>fuuuu</p>" ++ [CR] ++ B "
") /\
  Some (b_rv (parsed (BO false false false false) (B "lol" ++ [CR] ++ B "
" ++ [CR] ++ B "
1.  asd" ++ [CR] ++ B "
    cvb" ++ [CR] ++ B "
2.  qwe" ++ [CR] ++ B "
3.  zxc" ++ [CR] ++ B "
    1234" ++ [CR] ++ B "
" ++ [CR] ++ B "
fuuuu" ++ [CR] ++ B "
") None)) = Some (B "<p>lol</p>" ++ [CR] ++ B "
<ol>" ++ [CR] ++ B "
<li>asd" ++ [CR] ++ B "
cvb</li>" ++ [CR] ++ B "
<li>qwe</li>" ++ [CR] ++ B "
<li>zxc" ++ [CR] ++ B "
1234</li>" ++ [CR] ++ B "
</ol>" ++ [CR] ++ B "
<p>fuuuu</p>" ++ [CR] ++ B "
") /\
  Some (b_rv (parsed (BO false false false false) (B "1.  asd" ++ [CR] ++ B "
2.   qwe" ++ [CR] ++ B "
3.    zxc") None)) = Some (B "<ol>" ++ [CR] ++ B "
<li>asd</li>" ++ [CR] ++ B "
<li> qwe</li>" ++ [CR] ++ B "
<li>  zxc</li>" ++ [CR] ++ B "
</ol>" ++ [CR] ++ B "
").
Proof. tests. Qed.

Definition test_content_parse_first_header_text1 : bytes := B "<h1 id=""foo"">foo</h1>
<h2 id=""bar"">bar</h2>
<h3 id=""baz"">baz</h3>
".
Definition test_content_parse_first_header_text2 : bytes := B "<h2 id=""bar"">bar</h2>
<h1 id=""foo"">foo</h1>
<h3 id=""baz"">baz</h3>
".
Example test_content_parse_first_header :
  Some (b_rv (parsed (BO false true false false) (B "# foo") None)) = Some (B "<h1 id=""foo"">foo</h1>
") /\
  isnone (b_fh (parsed (BO false true false false) (B "# foo") None)) = false /\
  b_fh (parsed (BO false true false false) (B "# foo") None) = Some (B "foo") /\
  Some (b_rv (parsed (BO false true false false) (B "# foo
") None)) = Some (B "<h1 id=""foo"">foo</h1>
") /\
  isnone (b_fh (parsed (BO false true false false) (B "# foo
") None)) = false /\
  b_fh (parsed (BO false true false false) (B "# foo
") None) = Some (B "foo") /\
  Some (b_rv (parsed (BO false true false false) (B "# foo
## bar
### baz") None)) = Some test_content_parse_first_header_text1 /\
  isnone (b_fh (parsed (BO false true false false) (B "# foo
## bar
### baz") None)) = false /\
  b_fh (parsed (BO false true false false) (B "# foo
## bar
### baz") None) = Some (B "foo") /\
  Some (b_rv (parsed (BO false true false false) (B "# foo
## bar
### baz
") None)) = Some test_content_parse_first_header_text1 /\
  isnone (b_fh (parsed (BO false true false false) (B "# foo
## bar
### baz
") None)) = false /\
  b_fh (parsed (BO false true false false) (B "# foo
## bar
### baz
") None) = Some (B "foo") /\
  Some (b_rv (parsed (BO false true false false) (B "## bar
# foo
### baz") None)) = Some test_content_parse_first_header_text2 /\
  isnone (b_fh (parsed (BO false true false false) (B "## bar
# foo
### baz") None)) = false /\
  b_fh (parsed (BO false true false false) (B "## bar
# foo
### baz") None) = Some (B "bar") /\
  Some (b_rv (parsed (BO false true false false) (B "## bar
# foo
### baz
") None)) = Some test_content_parse_first_header_text2 /\
  isnone (b_fh (parsed (BO false true false false) (B "## bar
# foo
### baz
") None)) = false /\
  b_fh (parsed (BO false true false false) (B "## bar
# foo
### baz
") None) = Some (B "bar").
Proof. tests. Qed.

Definition test_content_parse_first_header_crlf_text1 : bytes := B "# foo" ++ [CR] ++ B "
## bar" ++ [CR] ++ B "
### baz".
Definition test_content_parse_first_header_crlf_text2 : bytes := B "<h1 id=""foo"">foo</h1>" ++ [CR] ++ B "
<h2 id=""bar"">bar</h2>" ++ [CR] ++ B "
<h3 id=""baz"">baz</h3>" ++ [CR] ++ B "
".
Definition test_content_parse_first_header_crlf_text3 : bytes := B "# foo" ++ [CR] ++ B "
## bar" ++ [CR] ++ B "
### baz" ++ [CR] ++ B "
".
Definition test_content_parse_first_header_crlf_text4 : bytes := B "## bar" ++ [CR] ++ B "
# foo" ++ [CR] ++ B "
### baz".
Definition test_content_parse_first_header_crlf_text5 : bytes := B "<h2 id=""bar"">bar</h2>" ++ [CR] ++ B "
<h1 id=""foo"">foo</h1>" ++ [CR] ++ B "
<h3 id=""baz"">baz</h3>" ++ [CR] ++ B "
".
Definition test_content_parse_first_header_crlf_text6 : bytes := B "## bar" ++ [CR] ++ B "
# foo" ++ [CR] ++ B "
### baz" ++ [CR] ++ B "
".
Example test_content_parse_first_header_crlf :
  Some (b_rv (parsed (BO false true false false) (B "# foo" ++ [CR] ++ B "
") None)) = Some (B "<h1 id=""foo"">foo</h1>" ++ [CR] ++ B "
") /\
  isnone (b_fh (parsed (BO false true false false) (B "# foo" ++ [CR] ++ B "
") None)) = false /\
  b_fh (parsed (BO false true false false) (B "# foo" ++ [CR] ++ B "
") None) = Some (B "foo") /\
  Some (b_rv (parsed (BO false true false false) test_content_parse_first_header_crlf_text1 None)) = Some test_content_parse_first_header_crlf_text2 /\
  isnone (b_fh (parsed (BO false true false false) test_content_parse_first_header_crlf_text1 None)) = false /\
  b_fh (parsed (BO false true false false) test_content_parse_first_header_crlf_text1 None) = Some (B "foo") /\
  Some (b_rv (parsed (BO false true false false) test_content_parse_first_header_crlf_text3 None)) = Some test_content_parse_first_header_crlf_text2 /\
  isnone (b_fh (parsed (BO false true false false) test_content_parse_first_header_crlf_text3 None)) = false /\
  b_fh (parsed (BO false true false false) test_content_parse_first_header_crlf_text3 None) = Some (B "foo") /\
  Some (b_rv (parsed (BO false true false false) test_content_parse_first_header_crlf_text4 None)) = Some test_content_parse_first_header_crlf_text5 /\
  isnone (b_fh (parsed (BO false true false false) test_content_parse_first_header_crlf_text4 None)) = false /\
  b_fh (parsed (BO false true false false) test_content_parse_first_header_crlf_text4 None) = Some (B "bar") /\
  Some (b_rv (parsed (BO false true false false) test_content_parse_first_header_crlf_text6 None)) = Some test_content_parse_first_header_crlf_text5 /\
  isnone (b_fh (parsed (BO false true false false) test_content_parse_first_header_crlf_text6 None)) = false /\
  b_fh (parsed (BO false true false false) test_content_parse_first_header_crlf_text6 None) = Some (B "bar").
Proof. tests. Qed.

Definition test_content_parse_headers_text1 : bytes := B "<h1 id=""foo"">foo</h1>
<h2 id=""bar"">bar</h2>
<h3 id=""baz"">baz</h3>
".
Definition test_content_parse_headers_text2 : bytes := B "<h2 id=""bar"">bar</h2>
<h1 id=""foo"">foo</h1>
<h3 id=""baz"">baz</h3>
".
Example test_content_parse_headers_1 :
  Some (b_rv (parsed (BO false false false true) (B "# foo") None)) = Some (B "<h1 id=""foo"">foo</h1>
") /\
  Nat.leb (length (b_hdrs (parsed (BO false false false true) (B "# foo") None))) 0 = false /\
  h_level (hd_at (b_hdrs (parsed (BO false false false true) (B "# foo") None)) 0) = 1 /\
  h_slug (hd_at (b_hdrs (parsed (BO false false false true) (B "# foo") None)) 0) = Some (B "foo") /\
  h_text (hd_at (b_hdrs (parsed (BO false false false true) (B "# foo") None)) 0) = Some (B "foo") /\
  Nat.leb (length (b_hdrs (parsed (BO false false false true) (B "# foo") None))) 1 = true /\
  Some (b_rv (parsed (BO false false false true) (B "# foo
") None)) = Some (B "<h1 id=""foo"">foo</h1>
") /\
  Nat.leb (length (b_hdrs (parsed (BO false false false true) (B "# foo
") None))) 0 = false /\
  h_level (hd_at (b_hdrs (parsed (BO false false false true) (B "# foo
") None)) 0) = 1 /\
  h_slug (hd_at (b_hdrs (parsed (BO false false false true) (B "# foo
") None)) 0) = Some (B "foo") /\
  h_text (hd_at (b_hdrs (parsed (BO false false false true) (B "# foo
") None)) 0) = Some (B "foo") /\
  Nat.leb (length (b_hdrs (parsed (BO false false false true) (B "# foo
") None))) 1 = true /\
  Some (b_rv (parsed (BO false false false true) (B "# foo
## bar
### baz") None)) = Some test_content_parse_headers_text1 /\
  Nat.leb (length (b_hdrs (parsed (BO false false false true) (B "# foo
## bar
### baz") None))) 0 = false /\
  h_level (hd_at (b_hdrs (parsed (BO false false false true) (B "# foo
## bar
### baz") None)) 0) = 1 /\
  h_slug (hd_at (b_hdrs (parsed (BO false false false true) (B "# foo
## bar
### baz") None)) 0) = Some (B "foo") /\
  h_text (hd_at (b_hdrs (parsed (BO false false false true) (B "# foo
## bar
### baz") None)) 0) = Some (B "foo") /\
  Nat.leb (length (b_hdrs (parsed (BO false false false true) (B "# foo
## bar
### baz") None))) 1 = false /\
  h_level (hd_at (b_hdrs (parsed (BO false false false true) (B "# foo
## bar
### baz") None)) 1) = 2 /\
  h_slug (hd_at (b_hdrs (parsed (BO false false false true) (B "# foo
## bar
### baz") None)) 1) = Some (B "bar") /\
  h_text (hd_at (b_hdrs (parsed (BO false false false true) (B "# foo
## bar
### baz") None)) 1) = Some (B "bar") /\
  h_level (hd_at (b_hdrs (parsed (BO false false false true) (B "# foo
## bar
### baz") None)) 2) = 3 /\
  h_slug (hd_at (b_hdrs (parsed (BO false false false true) (B "# foo
## bar
### baz") None)) 2) = Some (B "baz") /\
  h_text (hd_at (b_hdrs (parsed (BO false false false true) (B "# foo
## bar
### baz") None)) 2) = Some (B "baz").
Proof. tests. Qed.

Example test_content_parse_headers_2 :
  Nat.leb (length (b_hdrs (parsed (BO false false false true) (B "# foo
## bar
### baz") None))) 3 = true /\
  Some (b_rv (parsed (BO false false false true) (B "# foo
## bar
### baz
") None)) = Some test_content_parse_headers_text1 /\
  Nat.leb (length (b_hdrs (parsed (BO false false false true) (B "# foo
## bar
### baz
") None))) 0 = false /\
  h_level (hd_at (b_hdrs (parsed (BO false false false true) (B "# foo
## bar
### baz
") None)) 0) = 1 /\
  h_slug (hd_at (b_hdrs (parsed (BO false false false true) (B "# foo
## bar
### baz
") None)) 0) = Some (B "foo") /\
  h_text (hd_at (b_hdrs (parsed (BO false false false true) (B "# foo
## bar
### baz
") None)) 0) = Some (B "foo") /\
  Nat.leb (length (b_hdrs (parsed (BO false false false true) (B "# foo
## bar
### baz
") None))) 1 = false /\
  h_level (hd_at (b_hdrs (parsed (BO false false false true) (B "# foo
## bar
### baz
") None)) 1) = 2 /\
  h_slug (hd_at (b_hdrs (parsed (BO false false false true) (B "# foo
## bar
### baz
") None)) 1) = Some (B "bar") /\
  h_text (hd_at (b_hdrs (parsed (BO false false false true) (B "# foo
## bar
### baz
") None)) 1) = Some (B "bar") /\
  h_level (hd_at (b_hdrs (parsed (BO false false false true) (B "# foo
## bar
### baz
") None)) 2) = 3 /\
  h_slug (hd_at (b_hdrs (parsed (BO false false false true) (B "# foo
## bar
### baz
") None)) 2) = Some (B "baz") /\
  h_text (hd_at (b_hdrs (parsed (BO false false false true) (B "# foo
## bar
### baz
") None)) 2) = Some (B "baz") /\
  Nat.leb (length (b_hdrs (parsed (BO false false false true) (B "# foo
## bar
### baz
") None))) 3 = true /\
  Some (b_rv (parsed (BO false false false true) (B "## bar
# foo
### baz") None)) = Some test_content_parse_headers_text2 /\
  Nat.leb (length (b_hdrs (parsed (BO false false false true) (B "## bar
# foo
### baz") None))) 0 = false /\
  h_level (hd_at (b_hdrs (parsed (BO false false false true) (B "## bar
# foo
### baz") None)) 0) = 2 /\
  h_slug (hd_at (b_hdrs (parsed (BO false false false true) (B "## bar
# foo
### baz") None)) 0) = Some (B "bar") /\
  h_text (hd_at (b_hdrs (parsed (BO false false false true) (B "## bar
# foo
### baz") None)) 0) = Some (B "bar") /\
  Nat.leb (length (b_hdrs (parsed (BO false false false true) (B "## bar
# foo
### baz") None))) 1 = false /\
  h_level (hd_at (b_hdrs (parsed (BO false false false true) (B "## bar
# foo
### baz") None)) 1) = 1 /\
  h_slug (hd_at (b_hdrs (parsed (BO false false false true) (B "## bar
# foo
### baz") None)) 1) = Some (B "foo") /\
  h_text (hd_at (b_hdrs (parsed (BO false false false true) (B "## bar
# foo
### baz") None)) 1) = Some (B "foo") /\
  h_level (hd_at (b_hdrs (parsed (BO false false false true) (B "## bar
# foo
### baz") None)) 2) = 3.
Proof. tests. Qed.

Example test_content_parse_headers_3 :
  h_slug (hd_at (b_hdrs (parsed (BO false false false true) (B "## bar
# foo
### baz") None)) 2) = Some (B "baz") /\
  h_text (hd_at (b_hdrs (parsed (BO false false false true) (B "## bar
# foo
### baz") None)) 2) = Some (B "baz") /\
  Nat.leb (length (b_hdrs (parsed (BO false false false true) (B "## bar
# foo
### baz") None))) 3 = true /\
  Some (b_rv (parsed (BO false false false true) (B "## bar
# foo
### baz
") None)) = Some test_content_parse_headers_text2 /\
  Nat.leb (length (b_hdrs (parsed (BO false false false true) (B "## bar
# foo
### baz
") None))) 0 = false /\
  h_level (hd_at (b_hdrs (parsed (BO false false false true) (B "## bar
# foo
### baz
") None)) 0) = 2 /\
  h_slug (hd_at (b_hdrs (parsed (BO false false false true) (B "## bar
# foo
### baz
") None)) 0) = Some (B "bar") /\
  h_text (hd_at (b_hdrs (parsed (BO false false false true) (B "## bar
# foo
### baz
") None)) 0) = Some (B "bar") /\
  Nat.leb (length (b_hdrs (parsed (BO false false false true) (B "## bar
# foo
### baz
") None))) 1 = false /\
  h_level (hd_at (b_hdrs (parsed (BO false false false true) (B "## bar
# foo
### baz
") None)) 1) = 1 /\
  h_slug (hd_at (b_hdrs (parsed (BO false false false true) (B "## bar
# foo
### baz
") None)) 1) = Some (B "foo") /\
  h_text (hd_at (b_hdrs (parsed (BO false false false true) (B "## bar
# foo
### baz
") None)) 1) = Some (B "foo") /\
  h_level (hd_at (b_hdrs (parsed (BO false false false true) (B "## bar
# foo
### baz
") None)) 2) = 3 /\
  h_slug (hd_at (b_hdrs (parsed (BO false false false true) (B "## bar
# foo
### baz
") None)) 2) = Some (B "baz") /\
  h_text (hd_at (b_hdrs (parsed (BO false false false true) (B "## bar
# foo
### baz
") None)) 2) = Some (B "baz") /\
  Nat.leb (length (b_hdrs (parsed (BO false false false true) (B "## bar
# foo
### baz
") None))) 3 = true.
Proof. tests. Qed.

Definition test_content_parse_headers_crlf_text1 : bytes := B "# foo" ++ [CR] ++ B "
## bar" ++ [CR] ++ B "
### baz".
Definition test_content_parse_headers_crlf_text2 : bytes := B "<h1 id=""foo"">foo</h1>" ++ [CR] ++ B "
<h2 id=""bar"">bar</h2>" ++ [CR] ++ B "
<h3 id=""baz"">baz</h3>" ++ [CR] ++ B "
".
Definition test_content_parse_headers_crlf_text3 : bytes := B "# foo" ++ [CR] ++ B "
## bar" ++ [CR] ++ B "
### baz" ++ [CR] ++ B "
".
Definition test_content_parse_headers_crlf_text4 : bytes := B "## bar" ++ [CR] ++ B "
# foo" ++ [CR] ++ B "
### baz".
Definition test_content_parse_headers_crlf_text5 : bytes := B "<h2 id=""bar"">bar</h2>" ++ [CR] ++ B "
<h1 id=""foo"">foo</h1>" ++ [CR] ++ B "
<h3 id=""baz"">baz</h3>" ++ [CR] ++ B "
".
Definition test_content_parse_headers_crlf_text6 : bytes := B "## bar" ++ [CR] ++ B "
# foo" ++ [CR] ++ B "
### baz" ++ [CR] ++ B "
".
Example test_content_parse_headers_crlf_1 :
  Some (b_rv (parsed (BO false false false true) (B "# foo" ++ [CR] ++ B "
") None)) = Some (B "<h1 id=""foo"">foo</h1>" ++ [CR] ++ B "
") /\
  Nat.leb (length (b_hdrs (parsed (BO false false false true) (B "# foo" ++ [CR] ++ B "
") None))) 0 = false /\
  h_level (hd_at (b_hdrs (parsed (BO false false false true) (B "# foo" ++ [CR] ++ B "
") None)) 0) = 1 /\
  h_slug (hd_at (b_hdrs (parsed (BO false false false true) (B "# foo" ++ [CR] ++ B "
") None)) 0) = Some (B "foo") /\
  h_text (hd_at (b_hdrs (parsed (BO false false false true) (B "# foo" ++ [CR] ++ B "
") None)) 0) = Some (B "foo") /\
  Nat.leb (length (b_hdrs (parsed (BO false false false true) (B "# foo" ++ [CR] ++ B "
") None))) 1 = true /\
  Some (b_rv (parsed (BO false false false true) test_content_parse_headers_crlf_text1 None)) = Some test_content_parse_headers_crlf_text2 /\
  Nat.leb (length (b_hdrs (parsed (BO false false false true) test_content_parse_headers_crlf_text1 None))) 0 = false /\
  h_level (hd_at (b_hdrs (parsed (BO false false false true) test_content_parse_headers_crlf_text1 None)) 0) = 1 /\
  h_slug (hd_at (b_hdrs (parsed (BO false false false true) test_content_parse_headers_crlf_text1 None)) 0) = Some (B "foo") /\
  h_text (hd_at (b_hdrs (parsed (BO false false false true) test_content_parse_headers_crlf_text1 None)) 0) = Some (B "foo") /\
  Nat.leb (length (b_hdrs (parsed (BO false false false true) test_content_parse_headers_crlf_text1 None))) 1 = false /\
  h_level (hd_at (b_hdrs (parsed (BO false false false true) test_content_parse_headers_crlf_text1 None)) 1) = 2 /\
  h_slug (hd_at (b_hdrs (parsed (BO false false false true) test_content_parse_headers_crlf_text1 None)) 1) = Some (B "bar") /\
  h_text (hd_at (b_hdrs (parsed (BO false false false true) test_content_parse_headers_crlf_text1 None)) 1) = Some (B "bar") /\
  h_level (hd_at (b_hdrs (parsed (BO false false false true) test_content_parse_headers_crlf_text1 None)) 2) = 3 /\
  h_slug (hd_at (b_hdrs (parsed (BO false false false true) test_content_parse_headers_crlf_text1 None)) 2) = Some (B "baz") /\
  h_text (hd_at (b_hdrs (parsed (BO false false false true) test_content_parse_headers_crlf_text1 None)) 2) = Some (B "baz") /\
  Nat.leb (length (b_hdrs (parsed (BO false false false true) test_content_parse_headers_crlf_text1 None))) 3 = true /\
  Some (b_rv (parsed (BO false false false true) test_content_parse_headers_crlf_text3 None)) = Some test_content_parse_headers_crlf_text2 /\
  Nat.leb (length (b_hdrs (parsed (BO false false false true) test_content_parse_headers_crlf_text3 None))) 0 = false /\
  h_level (hd_at (b_hdrs (parsed (BO false false false true) test_content_parse_headers_crlf_text3 None)) 0) = 1 /\
  h_slug (hd_at (b_hdrs (parsed (BO false false false true) test_content_parse_headers_crlf_text3 None)) 0) = Some (B "foo") /\
  h_text (hd_at (b_hdrs (parsed (BO false false false true) test_content_parse_headers_crlf_text3 None)) 0) = Some (B "foo").
Proof. tests. Qed.

Example test_content_parse_headers_crlf_2 :
  Nat.leb (length (b_hdrs (parsed (BO false false false true) test_content_parse_headers_crlf_text3 None))) 1 = false /\
  h_level (hd_at (b_hdrs (parsed (BO false false false true) test_content_parse_headers_crlf_text3 None)) 1) = 2 /\
  h_slug (hd_at (b_hdrs (parsed (BO false false false true) test_content_parse_headers_crlf_text3 None)) 1) = Some (B "bar") /\
  h_text (hd_at (b_hdrs (parsed (BO false false false true) test_content_parse_headers_crlf_text3 None)) 1) = Some (B "bar") /\
  h_level (hd_at (b_hdrs (parsed (BO false false false true) test_content_parse_headers_crlf_text3 None)) 2) = 3 /\
  h_slug (hd_at (b_hdrs (parsed (BO false false false true) test_content_parse_headers_crlf_text3 None)) 2) = Some (B "baz") /\
  h_text (hd_at (b_hdrs (parsed (BO false false false true) test_content_parse_headers_crlf_text3 None)) 2) = Some (B "baz") /\
  Nat.leb (length (b_hdrs (parsed (BO false false false true) test_content_parse_headers_crlf_text3 None))) 3 = true /\
  Some (b_rv (parsed (BO false false false true) test_content_parse_headers_crlf_text4 None)) = Some test_content_parse_headers_crlf_text5 /\
  Nat.leb (length (b_hdrs (parsed (BO false false false true) test_content_parse_headers_crlf_text4 None))) 0 = false /\
  h_level (hd_at (b_hdrs (parsed (BO false false false true) test_content_parse_headers_crlf_text4 None)) 0) = 2 /\
  h_slug (hd_at (b_hdrs (parsed (BO false false false true) test_content_parse_headers_crlf_text4 None)) 0) = Some (B "bar") /\
  h_text (hd_at (b_hdrs (parsed (BO false false false true) test_content_parse_headers_crlf_text4 None)) 0) = Some (B "bar") /\
  Nat.leb (length (b_hdrs (parsed (BO false false false true) test_content_parse_headers_crlf_text4 None))) 1 = false /\
  h_level (hd_at (b_hdrs (parsed (BO false false false true) test_content_parse_headers_crlf_text4 None)) 1) = 1 /\
  h_slug (hd_at (b_hdrs (parsed (BO false false false true) test_content_parse_headers_crlf_text4 None)) 1) = Some (B "foo") /\
  h_text (hd_at (b_hdrs (parsed (BO false false false true) test_content_parse_headers_crlf_text4 None)) 1) = Some (B "foo") /\
  h_level (hd_at (b_hdrs (parsed (BO false false false true) test_content_parse_headers_crlf_text4 None)) 2) = 3 /\
  h_slug (hd_at (b_hdrs (parsed (BO false false false true) test_content_parse_headers_crlf_text4 None)) 2) = Some (B "baz") /\
  h_text (hd_at (b_hdrs (parsed (BO false false false true) test_content_parse_headers_crlf_text4 None)) 2) = Some (B "baz") /\
  Nat.leb (length (b_hdrs (parsed (BO false false false true) test_content_parse_headers_crlf_text4 None))) 3 = true /\
  Some (b_rv (parsed (BO false false false true) test_content_parse_headers_crlf_text6 None)) = Some test_content_parse_headers_crlf_text5 /\
  Nat.leb (length (b_hdrs (parsed (BO false false false true) test_content_parse_headers_crlf_text6 None))) 0 = false /\
  h_level (hd_at (b_hdrs (parsed (BO false false false true) test_content_parse_headers_crlf_text6 None)) 0) = 2.
Proof. tests. Qed.

Example test_content_parse_headers_crlf_3 :
  h_slug (hd_at (b_hdrs (parsed (BO false false false true) test_content_parse_headers_crlf_text6 None)) 0) = Some (B "bar") /\
  h_text (hd_at (b_hdrs (parsed (BO false false false true) test_content_parse_headers_crlf_text6 None)) 0) = Some (B "bar") /\
  Nat.leb (length (b_hdrs (parsed (BO false false false true) test_content_parse_headers_crlf_text6 None))) 1 = false /\
  h_level (hd_at (b_hdrs (parsed (BO false false false true) test_content_parse_headers_crlf_text6 None)) 1) = 1 /\
  h_slug (hd_at (b_hdrs (parsed (BO false false false true) test_content_parse_headers_crlf_text6 None)) 1) = Some (B "foo") /\
  h_text (hd_at (b_hdrs (parsed (BO false false false true) test_content_parse_headers_crlf_text6 None)) 1) = Some (B "foo") /\
  h_level (hd_at (b_hdrs (parsed (BO false false false true) test_content_parse_headers_crlf_text6 None)) 2) = 3 /\
  h_slug (hd_at (b_hdrs (parsed (BO false false false true) test_content_parse_headers_crlf_text6 None)) 2) = Some (B "baz") /\
  h_text (hd_at (b_hdrs (parsed (BO false false false true) test_content_parse_headers_crlf_text6 None)) 2) = Some (B "baz") /\
  Nat.leb (length (b_hdrs (parsed (BO false false false true) test_content_parse_headers_crlf_text6 None))) 3 = true.
Proof. tests. Qed.

Example test_content_parse_description :
  Some (b_rv (parsed (BO false false true false) (B "# foo

bar") None)) = Some (B "<h1 id=""foo"">foo</h1>
<p>bar</p>
") /\
  isnone (b_desc (parsed (BO false false true false) (B "# foo

bar") None)) = false /\
  b_desc (parsed (BO false false true false) (B "# foo

bar") None) = Some (B "bar") /\
  Some (b_rv (parsed (BO false false true false) (B "# foo

bar
") None)) = Some (B "<h1 id=""foo"">foo</h1>
<p>bar</p>
") /\
  isnone (b_desc (parsed (BO false false true false) (B "# foo

bar
") None)) = false /\
  b_desc (parsed (BO false false true false) (B "# foo

bar
") None) = Some (B "bar") /\
  Some (b_rv (parsed (BO false false true false) (B "# foo

qwe
bar
") None)) = Some (B "<h1 id=""foo"">foo</h1>
<p>qwe
bar</p>
") /\
  isnone (b_desc (parsed (BO false false true false) (B "# foo

qwe
bar
") None)) = false /\
  b_desc (parsed (BO false false true false) (B "# foo

qwe
bar
") None) = Some (B "qwe bar") /\
  Some (b_rv (parsed (BO false false true false) (B "# foo

> qwe

bar
") None)) = Some (B "<h1 id=""foo"">foo</h1>
<blockquote><p>qwe</p>
</blockquote>
<p>bar</p>
") /\
  isnone (b_desc (parsed (BO false false true false) (B "# foo

> qwe

bar
") None)) = false /\
  b_desc (parsed (BO false false true false) (B "# foo

> qwe

bar
") None) = Some (B "bar") /\
  Some (b_rv (parsed (BO false false true false) (B "# foo

> qwe
> zxc

bar
") None)) = Some (B "<h1 id=""foo"">foo</h1>
<blockquote><p>qwe
zxc</p>
</blockquote>
<p>bar</p>
") /\
  isnone (b_desc (parsed (BO false false true false) (B "# foo

> qwe
> zxc

bar
") None)) = false /\
  b_desc (parsed (BO false false true false) (B "# foo

> qwe
> zxc

bar
") None) = Some (B "bar").
Proof. tests. Qed.

Definition test_content_parse_description_crlf_text1 : bytes := B "<h1 id=""foo"">foo</h1>" ++ [CR] ++ B "
<p>bar</p>" ++ [CR] ++ B "
".
Definition test_content_parse_description_crlf_text2 : bytes := B "# foo" ++ [CR] ++ B "
" ++ [CR] ++ B "
bar" ++ [CR] ++ B "
".
Definition test_content_parse_description_crlf_text3 : bytes := B "# foo" ++ [CR] ++ B "
" ++ [CR] ++ B "
qwe" ++ [CR] ++ B "
bar" ++ [CR] ++ B "
".
Definition test_content_parse_description_crlf_text4 : bytes := B "# foo" ++ [CR] ++ B "
" ++ [CR] ++ B "
> qwe" ++ [CR] ++ B "
" ++ [CR] ++ B "
bar" ++ [CR] ++ B "
".
Definition test_content_parse_description_crlf_text5 : bytes := B "# foo" ++ [CR] ++ B "
" ++ [CR] ++ B "
> qwe" ++ [CR] ++ B "
> zxc" ++ [CR] ++ B "
" ++ [CR] ++ B "
bar" ++ [CR] ++ B "
".
Example test_content_parse_description_crlf :
  Some (b_rv (parsed (BO false false true false) (B "# foo" ++ [CR] ++ B "
" ++ [CR] ++ B "
bar") None)) = Some test_content_parse_description_crlf_text1 /\
  isnone (b_desc (parsed (BO false false true false) (B "# foo" ++ [CR] ++ B "
" ++ [CR] ++ B "
bar") None)) = false /\
  b_desc (parsed (BO false false true false) (B "# foo" ++ [CR] ++ B "
" ++ [CR] ++ B "
bar") None) = Some (B "bar") /\
  Some (b_rv (parsed (BO false false true false) test_content_parse_description_crlf_text2 None)) = Some test_content_parse_description_crlf_text1 /\
  isnone (b_desc (parsed (BO false false true false) test_content_parse_description_crlf_text2 None)) = false /\
  b_desc (parsed (BO false false true false) test_content_parse_description_crlf_text2 None) = Some (B "bar") /\
  Some (b_rv (parsed (BO false false true false) test_content_parse_description_crlf_text3 None)) = Some (B "<h1 id=""foo"">foo</h1>" ++ [CR] ++ B "
<p>qwe" ++ [CR] ++ B "
bar</p>" ++ [CR] ++ B "
") /\
  isnone (b_desc (parsed (BO false false true false) test_content_parse_description_crlf_text3 None)) = false /\
  b_desc (parsed (BO false false true false) test_content_parse_description_crlf_text3 None) = Some (B "qwe bar") /\
  Some (b_rv (parsed (BO false false true false) test_content_parse_description_crlf_text4 None)) = Some (B "<h1 id=""foo"">foo</h1>" ++ [CR] ++ B "
<blockquote><p>qwe</p>" ++ [CR] ++ B "
</blockquote>" ++ [CR] ++ B "
<p>bar</p>" ++ [CR] ++ B "
") /\
  isnone (b_desc (parsed (BO false false true false) test_content_parse_description_crlf_text4 None)) = false /\
  b_desc (parsed (BO false false true false) test_content_parse_description_crlf_text4 None) = Some (B "bar") /\
  Some (b_rv (parsed (BO false false true false) test_content_parse_description_crlf_text5 None)) = Some (B "<h1 id=""foo"">foo</h1>" ++ [CR] ++ B "
<blockquote><p>qwe" ++ [CR] ++ B "
zxc</p>" ++ [CR] ++ B "
</blockquote>" ++ [CR] ++ B "
<p>bar</p>" ++ [CR] ++ B "
") /\
  isnone (b_desc (parsed (BO false false true false) test_content_parse_description_crlf_text5 None)) = false /\
  b_desc (parsed (BO false false true false) test_content_parse_description_crlf_text5 None) = Some (B "bar").
Proof. tests. Qed.

Example test_content_parse_endl :
  Some (b_le (parsed (BO false false false false) (B "# test") None)) = Some (B "
") /\
  Some (b_le (parsed (BO false false false false) (B "# test") (Some (B "
")))) = Some (B "
") /\
  Some (b_le (parsed (BO false false false false) (B "# test
") None)) = Some (B "
") /\
  Some (b_le (parsed (BO false false false false) (B "# test
foo") None)) = Some (B "
") /\
  Some (b_le (parsed (BO false false false false) (B "# test
foo
") None)) = Some (B "
") /\
  Some (b_le (parsed (BO false false false false) (B "# test
foo" ++ [CR] ++ B "
") None)) = Some (B "
").
Proof. tests. Qed.

Example test_content_parse_endl_crlf :
  Some (b_le (parsed (BO false false false false) (B "# test") (Some ([CR] ++ B "
")))) = Some ([CR] ++ B "
") /\
  Some (b_le (parsed (BO false false false false) (B "# test" ++ [CR] ++ B "
") None)) = Some ([CR] ++ B "
") /\
  Some (b_le (parsed (BO false false false false) (B "# test" ++ [CR] ++ B "
foo") None)) = Some ([CR] ++ B "
") /\
  Some (b_le (parsed (BO false false false false) (B "# test" ++ [CR] ++ B "
foo" ++ [CR] ++ B "
") None)) = Some ([CR] ++ B "
") /\
  Some (b_le (parsed (BO false false false false) (B "# test" ++ [CR] ++ B "
foo
") None)) = Some ([CR] ++ B "
").
Proof. tests. Qed.

Example test_content_parse_invalid_excerpt :
  b_exc (parsed (BO true false true false) (B "# test

chunda
..

guda
lol") None) = 0 /\
  isnone (b_desc (parsed (BO true false true false) (B "# test

chunda
..

guda
lol") None)) = false /\
  b_desc (parsed (BO true false true false) (B "# test

chunda
..

guda
lol") None) = Some (B "chunda ..") /\
  Some (b_rv (parsed (BO true false true false) (B "# test

chunda
..

guda
lol") None)) = Some (B "<h1 id=""test"">test</h1>
<p>chunda
..</p>
<p>guda
lol</p>
") /\
  b_exc (parsed (BO true false true false) (B "# test

chunda

...
guda
lol") None) = 0 /\
  isnone (b_desc (parsed (BO true false true false) (B "# test

chunda

...
guda
lol") None)) = false /\
  b_desc (parsed (BO true false true false) (B "# test

chunda

...
guda
lol") None) = Some (B "chunda") /\
  Some (b_rv (parsed (BO true false true false) (B "# test

chunda

...
guda
lol") None)) = Some (B "<h1 id=""test"">test</h1>
<p>chunda</p>
<p>...
guda
lol</p>
") /\
  b_exc (parsed (BO true false true false) (B "# test

chunda..

guda
lol") None) = 0 /\
  isnone (b_desc (parsed (BO true false true false) (B "# test

chunda..

guda
lol") None)) = false /\
  b_desc (parsed (BO true false true false) (B "# test

chunda..

guda
lol") None) = Some (B "chunda..") /\
  Some (b_rv (parsed (BO true false true false) (B "# test

chunda..

guda
lol") None)) = Some (B "<h1 id=""test"">test</h1>
<p>chunda..</p>
<p>guda
lol</p>
") /\
  b_exc (parsed (BO true false true false) (B "# test

chunda

...guda
lol") None) = 0 /\
  isnone (b_desc (parsed (BO true false true false) (B "# test

chunda

...guda
lol") None)) = false /\
  b_desc (parsed (BO true false true false) (B "# test

chunda

...guda
lol") None) = Some (B "chunda") /\
  Some (b_rv (parsed (BO true false true false) (B "# test

chunda

...guda
lol") None)) = Some (B "<h1 id=""test"">test</h1>
<p>chunda</p>
<p>...guda
lol</p>
").
Proof. tests. Qed.

Example test_content_parse_invalid_header :
  Some (b_rv (parsed (BO false false false false) (B "asd

##bola
") None)) = Some (B "<p>asd</p>
<p>##bola</p>
").
Proof. tests. Qed.

Example test_content_parse_invalid_header_empty :
  Some (b_rv (parsed (BO false false false false) (B "asd

##

qwe
") None)) = Some (B "<p>asd</p>
<p>##

qwe</p>
").
Proof. tests. Qed.

Example test_content_parse_invalid_blockquote :
  Some (b_rv (parsed (BO false false false false) (B ">   asd
> bola
>   foo
") None)) = Some (B "<p>&gt;   asd
&gt; bola
&gt;   foo</p>
") /\
  Some (b_rv (parsed (BO false false false false) (B ">   asd
> bola") None)) = Some (B "<p>&gt;   asd
&gt; bola</p>
").
Proof. tests. Qed.

Example test_content_parse_invalid_code :
  Some (b_rv (parsed (BO false false false false) (B "    asd
  bola
    foo
") None)) = Some (B "<p>    asd
  bola
    foo</p>
") /\
  Some (b_rv (parsed (BO false false false false) (B "    asd
  bola
    foo") None)) = Some (B "<p>    asd
  bola
    foo</p>
").
Proof. tests. Qed.

Example test_content_parse_invalid_horizontal_rule :
  Some (b_rv (parsed (BO false false false false) (B "** asd") None)) = Some (B "<p>** asd</p>
") /\
  Some (b_rv (parsed (BO false false false false) (B "** asd
") None)) = Some (B "<p>** asd</p>
").
Proof. tests. Qed.

Example test_content_parse_invalid_unordered_list :
  Some (b_rv (parsed (BO false false false false) (B "*  asd
1. qwe") None)) = Some (B "<p>*  asd
1. qwe</p>
") /\
  Some (b_rv (parsed (BO false false false false) (B "*  asd
1. qwe

") None)) = Some (B "<p>*  asd
1. qwe</p>
") /\
  Some (b_rv (parsed (BO false false false false) (B "*  asd
1. qwe
") None)) = Some (B "<p>*  asd
1. qwe</p>
") /\
  Some (b_rv (parsed (BO false false false false) (B "* asd
1. qwe
") None)) = Some (B "<p>* asd
1. qwe</p>
") /\
  Some (b_rv (parsed (BO false false false false) (B "chunda

* asd
1. qwe

poi
") None)) = Some (B "<p>chunda</p>
<p>* asd
1. qwe</p>
<p>poi</p>
").
Proof. tests. Qed.

Example test_content_parse_invalid_ordered_list :
  Some (b_rv (parsed (BO false false false false) (B "1. asd
*  qwe") None)) = Some (B "<p>1. asd
*  qwe</p>
") /\
  Some (b_rv (parsed (BO false false false false) (B "1. asd
*  qwe

") None)) = Some (B "<p>1. asd
*  qwe</p>
") /\
  Some (b_rv (parsed (BO false false false false) (B "1. asd
*  qwe
") None)) = Some (B "<p>1. asd
*  qwe</p>
") /\
  Some (b_rv (parsed (BO false false false false) (B "chunda

1. asd
*  qwe

poi
") None)) = Some (B "<p>chunda</p>
<p>1. asd
*  qwe</p>
<p>poi</p>
") /\
  Some (b_rv (parsed (BO false false false false) (B "1 asd
* qwe
") None)) = Some (B "<p>1 asd
* qwe</p>
") /\
  Some (b_rv (parsed (BO false false false false) (B "a. asd
2. qwe
") None)) = Some (B "<p>a. asd
2. qwe</p>
") /\
  Some (b_rv (parsed (BO false false false false) (B "1.
asd
2. qwe
") None)) = Some (B "<p>1.
asd
2. qwe</p>
") /\
  Some (b_rv (parsed (BO false false false false) (B "1.
") None)) = Some (B "<p>1.</p>
") /\
  Some (b_rv (parsed (BO false false false false) (B "1 ") None)) = Some (B "<p>1 </p>
").
Proof. tests. Qed.

Definition test_content_parse_inline_text1 : bytes := B "**bola***asd* [![lol](http://google.com/lol.png) **lol** \[asd\]\(qwe\)](http://google.com) ``chunda`` [[bola]] chunda[9]".
Example test_content_parse_inline :
  isnone (ok_bytes (inline test_content_parse_inline_text1)) = false /\
  ok_bytes (inline test_content_parse_inline_text1) = Some (B "<strong>bola</strong><em>asd</em> <a href=""http://google.com""><img src=""http://google.com/lol.png"" alt=""lol""> <strong>lol</strong> [asd](qwe)</a> <code>chunda</code> <a href=""bola"">bola</a> chunda[9]") /\
  isnone (ok_bytes (inline (B "*bola*"))) = false /\
  ok_bytes (inline (B "*bola*")) = Some (B "<em>bola</em>") /\
  isnone (ok_bytes (inline (B "bola!"))) = false /\
  ok_bytes (inline (B "bola!")) = Some (B "bola!").
Proof. tests. Qed.

Example test_content_parse_inline_em :
  isnone (ok_bytes (inline (B "*bola*"))) = false /\
  ok_bytes (inline (B "*bola*")) = Some (B "<em>bola</em>") /\
  isnone (ok_bytes (inline (B "*bola*
"))) = false /\
  ok_bytes (inline (B "*bola*
")) = Some (B "<em>bola</em>
") /\
  isnone (ok_bytes (inline (B "*bo\*la*
"))) = false /\
  ok_bytes (inline (B "*bo\*la*
")) = Some (B "<em>bo*la</em>
") /\
  isnone (ok_bytes (inline (B "_bola_"))) = false /\
  ok_bytes (inline (B "_bola_")) = Some (B "<em>bola</em>") /\
  isnone (ok_bytes (inline (B "_bola_
"))) = false /\
  ok_bytes (inline (B "_bola_
")) = Some (B "<em>bola</em>
") /\
  isnone (ok_bytes (inline (B "_bo\_la_
"))) = false /\
  ok_bytes (inline (B "_bo\_la_
")) = Some (B "<em>bo_la</em>
") /\
  isnone (ok_bytes (inline (B "_**bola**_
"))) = false /\
  ok_bytes (inline (B "_**bola**_
")) = Some (B "<em><strong>bola</strong></em>
") /\
  isnone (ok_bytes (inline (B "_**bo\_\*la**_
"))) = false /\
  ok_bytes (inline (B "_**bo\_\*la**_
")) = Some (B "<em><strong>bo_*la</strong></em>
") /\
  isnone (ok_bytes (inline (B "_**bola
"))) = false /\
  ok_bytes (inline (B "_**bola
")) = Some (B "_**bola
") /\
  isnone (ok_bytes (inline (B "**_bola\*
"))) = false /\
  ok_bytes (inline (B "**_bola\*
")) = Some (B "**_bola*
").
Proof. tests. Qed.

Example test_content_parse_inline_strong :
  isnone (ok_bytes (inline (B "**bola**"))) = false /\
  ok_bytes (inline (B "**bola**")) = Some (B "<strong>bola</strong>") /\
  isnone (ok_bytes (inline (B "**bola**
"))) = false /\
  ok_bytes (inline (B "**bola**
")) = Some (B "<strong>bola</strong>
") /\
  isnone (ok_bytes (inline (B "**bo\*\*la**
"))) = false /\
  ok_bytes (inline (B "**bo\*\*la**
")) = Some (B "<strong>bo**la</strong>
") /\
  isnone (ok_bytes (inline (B "__bola__"))) = false /\
  ok_bytes (inline (B "__bola__")) = Some (B "<strong>bola</strong>") /\
  isnone (ok_bytes (inline (B "__bola__
"))) = false /\
  ok_bytes (inline (B "__bola__
")) = Some (B "<strong>bola</strong>
") /\
  isnone (ok_bytes (inline (B "__bo\_\_la__
"))) = false /\
  ok_bytes (inline (B "__bo\_\_la__
")) = Some (B "<strong>bo__la</strong>
") /\
  isnone (ok_bytes (inline (B "__*bola*__
"))) = false /\
  ok_bytes (inline (B "__*bola*__
")) = Some (B "<strong><em>bola</em></strong>
") /\
  isnone (ok_bytes (inline (B "__*bo\_\*la*__
"))) = false /\
  ok_bytes (inline (B "__*bo\_\*la*__
")) = Some (B "<strong><em>bo_*la</em></strong>
") /\
  isnone (ok_bytes (inline (B "__*bola
"))) = false /\
  ok_bytes (inline (B "__*bola
")) = Some (B "__*bola
") /\
  isnone (ok_bytes (inline (B "__*bola\_
"))) = false /\
  ok_bytes (inline (B "__*bola\_
")) = Some (B "__*bola_
").
Proof. tests. Qed.

Example test_content_parse_inline_code :
  isnone (ok_bytes (inline (B "``bola``"))) = false /\
  ok_bytes (inline (B "``bola``")) = Some (B "<code>bola</code>") /\
  isnone (ok_bytes (inline (B "``bola``
"))) = false /\
  ok_bytes (inline (B "``bola``
")) = Some (B "<code>bola</code>
") /\
  isnone (ok_bytes (inline (B "`bola`"))) = false /\
  ok_bytes (inline (B "`bola`")) = Some (B "<code>bola</code>") /\
  isnone (ok_bytes (inline (B "`bola`
"))) = false /\
  ok_bytes (inline (B "`bola`
")) = Some (B "<code>bola</code>
") /\
  isnone (ok_bytes (inline (B "``bo*la``
"))) = false /\
  ok_bytes (inline (B "``bo*la``
")) = Some (B "<code>bo*la</code>
") /\
  isnone (ok_bytes (inline (B "``bo<la``
"))) = false /\
  ok_bytes (inline (B "``bo<la``
")) = Some (B "<code>bo&lt;la</code>
") /\
  isnone (ok_bytes (inline (B "`bo\`\`la`
"))) = false /\
  ok_bytes (inline (B "`bo\`\`la`
")) = Some (B "<code>bo\`\`la</code>
") /\
  isnone (ok_bytes (inline (B "``bo\`\`la``
"))) = false /\
  ok_bytes (inline (B "``bo\`\`la``
")) = Some (B "<code>bo\`\`la</code>
") /\
  isnone (ok_bytes (inline (B "``bo`la``
"))) = false /\
  ok_bytes (inline (B "``bo`la``
")) = Some (B "<code>bo`la</code>
") /\
  isnone (ok_bytes (inline (B "``bola
"))) = false /\
  ok_bytes (inline (B "``bola
")) = Some (B "``bola
") /\
  isnone (ok_bytes (inline (B "`bola
"))) = false /\
  ok_bytes (inline (B "`bola
")) = Some (B "`bola
") /\
  isnone (ok_bytes (inline (B "``bola`
"))) = false /\
  ok_bytes (inline (B "``bola`
")) = Some (B "``bola`
").
Proof. tests. Qed.

Definition test_content_parse_inline_link_text1 : bytes := B "[bola]" ++ [CR] ++ B "
(http://example.org/)
".
Definition test_content_parse_inline_link_text2 : bytes := B "[bola] " ++ [CR] ++ B "
 (http://example.org/)
".
Definition test_content_parse_inline_link_text3 : bytes := B "test suite!)
depends on [cmocka](http://cmocka.org/), though.
".
Example test_content_parse_inline_link_1 :
  isnone (ok_bytes (inline (B "[bola](http://example.org/)"))) = false /\
  ok_bytes (inline (B "[bola](http://example.org/)")) = Some (B "<a href=""http://example.org/"">bola</a>") /\
  isnone (ok_bytes (inline (B "[bola](http://example.org/)
"))) = false /\
  ok_bytes (inline (B "[bola](http://example.org/)
")) = Some (B "<a href=""http://example.org/"">bola</a>
") /\
  isnone (ok_bytes (inline (B "[bola!](http://example.org/)
"))) = false /\
  ok_bytes (inline (B "[bola!](http://example.org/)
")) = Some (B "<a href=""http://example.org/"">bola!</a>
") /\
  isnone (ok_bytes (inline (B "[bola]
(http://example.org/)
"))) = false /\
  ok_bytes (inline (B "[bola]
(http://example.org/)
")) = Some (B "<a href=""http://example.org/"">bola</a>
") /\
  isnone (ok_bytes (inline test_content_parse_inline_link_text1)) = false /\
  ok_bytes (inline test_content_parse_inline_link_text1) = Some (B "<a href=""http://example.org/"">bola</a>
") /\
  isnone (ok_bytes (inline test_content_parse_inline_link_text2)) = false /\
  ok_bytes (inline test_content_parse_inline_link_text2) = Some (B "<a href=""http://example.org/"">bola</a>
") /\
  isnone (ok_bytes (inline (B "[bo
la](http://example.org/)
"))) = false /\
  ok_bytes (inline (B "[bo
la](http://example.org/)
")) = Some (B "<a href=""http://example.org/"">bo
la</a>
") /\
  isnone (ok_bytes (inline (B "[``bola``](http://example.org/)
"))) = false /\
  ok_bytes (inline (B "[``bola``](http://example.org/)
")) = Some (B "<a href=""http://example.org/""><code>bola</code></a>
") /\
  isnone (ok_bytes (inline (B "[``bola(2)[3]**!\```](http://example.org/)
"))) = false /\
  ok_bytes (inline (B "[``bola(2)[3]**!\```](http://example.org/)
")) = Some (B "<a href=""http://example.org/""><code>bola(2)[3]**!\`</code></a>
") /\
  isnone (ok_bytes (inline (B "[``bola(2)[3]**!```](http://example.org/)
"))) = false /\
  ok_bytes (inline (B "[``bola(2)[3]**!```](http://example.org/)
")) = Some (B "<a href=""http://example.org/""><code>bola(2)[3]**!</code>`</a>
") /\
  isnone (ok_bytes (inline test_content_parse_inline_link_text3)) = false /\
  ok_bytes (inline test_content_parse_inline_link_text3) = Some (B "test suite!)
depends on <a href=""http://cmocka.org/"">cmocka</a>, though.
") /\
  isnone (ok_bytes (inline (B "asd [bola]chunda(1234)"))) = false /\
  ok_bytes (inline (B "asd [bola]chunda(1234)")) = Some (B "asd [bola]chunda(1234)").
Proof. tests. Qed.

Example test_content_parse_inline_link_2 :
  isnone (ok_bytes (inline (B "[bola](
http://example.org/)
"))) = false /\
  ok_bytes (inline (B "[bola](
http://example.org/)
")) = Some (B "<a href=""
http://example.org/"">bola</a>
") /\
  isnone (ok_bytes (inline (B "[bo[]\[\]()la](http://example.org/?\(\))
"))) = false /\
  ok_bytes (inline (B "[bo[]\[\]()la](http://example.org/?\(\))
")) = Some (B "<a href=""http://example.org/?()"">bo[][]()la</a>
") /\
  isnone (ok_bytes (inline (B "[bola](http://example.org/
"))) = false /\
  ok_bytes (inline (B "[bola](http://example.org/
")) = Some (B "[bola](http:&#x2F;&#x2F;example.org&#x2F;
") /\
  isnone (ok_bytes (inline (B "["))) = false /\
  ok_bytes (inline (B "[")) = Some (B "[") /\
  isnone (ok_bytes (inline (B "[
"))) = false /\
  ok_bytes (inline (B "[
")) = Some (B "[
") /\
  isnone (ok_bytes (inline (B "[a"))) = false /\
  ok_bytes (inline (B "[a")) = Some (B "[a") /\
  isnone (ok_bytes (inline (B "[a
"))) = false /\
  ok_bytes (inline (B "[a
")) = Some (B "[a
") /\
  isnone (ok_bytes (inline (B "[a]"))) = false /\
  ok_bytes (inline (B "[a]")) = Some (B "[a]") /\
  isnone (ok_bytes (inline (B "[a]
"))) = false /\
  ok_bytes (inline (B "[a]
")) = Some (B "[a]
").
Proof. tests. Qed.

Example test_content_parse_inline_link_auto :
  isnone (ok_bytes (inline (B "[[guda]]"))) = false /\
  ok_bytes (inline (B "[[guda]]")) = Some (B "<a href=""guda"">guda</a>") /\
  isnone (ok_bytes (inline (B "[[guda]]
"))) = false /\
  ok_bytes (inline (B "[[guda]]
")) = Some (B "<a href=""guda"">guda</a>
") /\
  isnone (ok_bytes (inline (B "[[http://example.org/?\[\]]]
"))) = false /\
  ok_bytes (inline (B "[[http://example.org/?\[\]]]
")) = Some (B "<a href=""http://example.org/?[]"">http://example.org/?[]</a>
") /\
  isnone (ok_bytes (inline (B "[[http://example.org/?\[\]a]]
"))) = false /\
  ok_bytes (inline (B "[[http://example.org/?\[\]a]]
")) = Some (B "<a href=""http://example.org/?[]a"">http://example.org/?[]a</a>
") /\
  isnone (ok_bytes (inline (B "[[guda]asd]"))) = false /\
  ok_bytes (inline (B "[[guda]asd]")) = Some (B "[[guda]asd]") /\
  isnone (ok_bytes (inline (B "[[guda]asd]
"))) = false /\
  ok_bytes (inline (B "[[guda]asd]
")) = Some (B "[[guda]asd]
") /\
  isnone (ok_bytes (inline (B "[[guda]asd"))) = false /\
  ok_bytes (inline (B "[[guda]asd")) = Some (B "[[guda]asd") /\
  isnone (ok_bytes (inline (B "[[guda]asd
"))) = false /\
  ok_bytes (inline (B "[[guda]asd
")) = Some (B "[[guda]asd
").
Proof. tests. Qed.

Definition test_content_parse_inline_image_text1 : bytes := B "<img src=""http://example.org/"" alt=""bola"">
".
Definition test_content_parse_inline_image_text2 : bytes := B "![bola]" ++ [CR] ++ B "
(http://example.org/)
".
Definition test_content_parse_inline_image_text3 : bytes := B "![bola] " ++ [CR] ++ B "
 (http://example.org/)
".
Definition test_content_parse_inline_image_text4 : bytes := B "[![This is the image alt text](picture.jpg)](https://blogc.rgm.io)".
Definition test_content_parse_inline_image_text5 : bytes := B "<a href=""https://blogc.rgm.io""><img src=""picture.jpg"" alt=""This is the image alt text""></a>".
Definition test_content_parse_inline_image_text6 : bytes := B "[![This is the image alt text]
(picture.jpg)](https://blogc.rgm.io)".
Definition test_content_parse_inline_image_text7 : bytes := B "[![This is the image alt text]
(picture.jpg)]
(https://blogc.rgm.io)".
Example test_content_parse_inline_image_1 :
  isnone (ok_bytes (inline (B "![bola](http://example.org/)"))) = false /\
  ok_bytes (inline (B "![bola](http://example.org/)")) = Some (B "<img src=""http://example.org/"" alt=""bola"">") /\
  isnone (ok_bytes (inline (B "![bola](http://example.org/)
"))) = false /\
  ok_bytes (inline (B "![bola](http://example.org/)
")) = Some test_content_parse_inline_image_text1 /\
  isnone (ok_bytes (inline (B "![bola]
(http://example.org/)
"))) = false /\
  ok_bytes (inline (B "![bola]
(http://example.org/)
")) = Some test_content_parse_inline_image_text1 /\
  isnone (ok_bytes (inline test_content_parse_inline_image_text2)) = false /\
  ok_bytes (inline test_content_parse_inline_image_text2) = Some test_content_parse_inline_image_text1 /\
  isnone (ok_bytes (inline test_content_parse_inline_image_text3)) = false /\
  ok_bytes (inline test_content_parse_inline_image_text3) = Some test_content_parse_inline_image_text1 /\
  isnone (ok_bytes (inline test_content_parse_inline_image_text4)) = false /\
  ok_bytes (inline test_content_parse_inline_image_text4) = Some test_content_parse_inline_image_text5 /\
  isnone (ok_bytes (inline test_content_parse_inline_image_text6)) = false /\
  ok_bytes (inline test_content_parse_inline_image_text6) = Some test_content_parse_inline_image_text5 /\
  isnone (ok_bytes (inline test_content_parse_inline_image_text7)) = false /\
  ok_bytes (inline test_content_parse_inline_image_text7) = Some test_content_parse_inline_image_text5 /\
  isnone (ok_bytes (inline (B "asd ![bola]chunda(1234)"))) = false /\
  ok_bytes (inline (B "asd ![bola]chunda(1234)")) = Some (B "asd ![bola]chunda(1234)") /\
  isnone (ok_bytes (inline (B "![bo
la](http://example.org/)
"))) = false /\
  ok_bytes (inline (B "![bo
la](http://example.org/)
")) = Some (B "<img src=""http://example.org/"" alt=""bo
la"">
") /\
  isnone (ok_bytes (inline (B "![bola](
http://example.org/)
"))) = false /\
  ok_bytes (inline (B "![bola](
http://example.org/)
")) = Some (B "<img src=""
http://example.org/"" alt=""bola"">
") /\
  isnone (ok_bytes (inline (B "![bo\[\]()la](http://example.org/?\(\))
"))) = false /\
  ok_bytes (inline (B "![bo\[\]()la](http://example.org/?\(\))
")) = Some (B "<img src=""http://example.org/?()"" alt=""bo[]()la"">
").
Proof. tests. Qed.

Example test_content_parse_inline_image_2 :
  isnone (ok_bytes (inline (B "![bola](http://example.org/
"))) = false /\
  ok_bytes (inline (B "![bola](http://example.org/
")) = Some (B "![bola](http:&#x2F;&#x2F;example.org&#x2F;
") /\
  isnone (ok_bytes (inline (B "!"))) = false /\
  ok_bytes (inline (B "!")) = Some (B "!") /\
  isnone (ok_bytes (inline (B "!["))) = false /\
  ok_bytes (inline (B "![")) = Some (B "![") /\
  isnone (ok_bytes (inline (B "!
"))) = false /\
  ok_bytes (inline (B "!
")) = Some (B "!
") /\
  isnone (ok_bytes (inline (B "![
"))) = false /\
  ok_bytes (inline (B "![
")) = Some (B "![
") /\
  isnone (ok_bytes (inline (B "![a"))) = false /\
  ok_bytes (inline (B "![a")) = Some (B "![a") /\
  isnone (ok_bytes (inline (B "!a
"))) = false /\
  ok_bytes (inline (B "!a
")) = Some (B "!a
") /\
  isnone (ok_bytes (inline (B "![a
"))) = false /\
  ok_bytes (inline (B "![a
")) = Some (B "![a
") /\
  isnone (ok_bytes (inline (B "![a]"))) = false /\
  ok_bytes (inline (B "![a]")) = Some (B "![a]") /\
  isnone (ok_bytes (inline (B "!a]
"))) = false /\
  ok_bytes (inline (B "!a]
")) = Some (B "!a]
") /\
  isnone (ok_bytes (inline (B "![a]
"))) = false /\
  ok_bytes (inline (B "![a]
")) = Some (B "![a]
").
Proof. tests. Qed.

Example test_content_parse_inline_line_break :
  isnone (ok_bytes (inline (B "asd  
"))) = false /\
  ok_bytes (inline (B "asd  
")) = Some (B "asd<br />
") /\
  isnone (ok_bytes (inline (B "asd  "))) = false /\
  ok_bytes (inline (B "asd  ")) = Some (B "asd<br />") /\
  isnone (ok_bytes (inline (B "asd   "))) = false /\
  ok_bytes (inline (B "asd   ")) = Some (B "asd<br />") /\
  isnone (ok_bytes (inline (B "asd "))) = false /\
  ok_bytes (inline (B "asd ")) = Some (B "asd ") /\
  isnone (ok_bytes (inline (B "asd 
"))) = false /\
  ok_bytes (inline (B "asd 
")) = Some (B "asd 
") /\
  isnone (ok_bytes (inline (B "asd  a
"))) = false /\
  ok_bytes (inline (B "asd  a
")) = Some (B "asd  a
") /\
  isnone (ok_bytes (inline (B "asd    a
"))) = false /\
  ok_bytes (inline (B "asd    a
")) = Some (B "asd    a
").
Proof. tests. Qed.

Example test_content_parse_inline_line_break_crlf :
  isnone (ok_bytes (inline (B "asd  " ++ [CR] ++ B "
"))) = false /\
  ok_bytes (inline (B "asd  " ++ [CR] ++ B "
")) = Some (B "asd<br />" ++ [CR] ++ B "
") /\
  isnone (ok_bytes (inline (B "asd " ++ [CR] ++ B "
"))) = false /\
  ok_bytes (inline (B "asd " ++ [CR] ++ B "
")) = Some (B "asd " ++ [CR] ++ B "
").
Proof. tests. Qed.

Example test_content_parse_inline_endash_emdash_1 :
  isnone (ok_bytes (inline (B "foo -- bar"))) = false /\
  ok_bytes (inline (B "foo -- bar")) = Some (B "foo &ndash; bar") /\
  isnone (ok_bytes (inline (B "foo --- bar"))) = false /\
  ok_bytes (inline (B "foo --- bar")) = Some (B "foo &mdash; bar") /\
  isnone (ok_bytes (inline (B "foo --"))) = false /\
  ok_bytes (inline (B "foo --")) = Some (B "foo &ndash;") /\
  isnone (ok_bytes (inline (B "foo ---"))) = false /\
  ok_bytes (inline (B "foo ---")) = Some (B "foo &mdash;") /\
  isnone (ok_bytes (inline (B "foo \-\-"))) = false /\
  ok_bytes (inline (B "foo \-\-")) = Some (B "foo --") /\
  isnone (ok_bytes (inline (B "foo \-\-\-"))) = false /\
  ok_bytes (inline (B "foo \-\-\-")) = Some (B "foo ---") /\
  isnone (ok_bytes (inline (B "foo \---"))) = false /\
  ok_bytes (inline (B "foo \---")) = Some (B "foo -&ndash;") /\
  isnone (ok_bytes (inline (B "foo \----"))) = false /\
  ok_bytes (inline (B "foo \----")) = Some (B "foo -&mdash;") /\
  isnone (ok_bytes (inline (B "foo \-\- bar"))) = false /\
  ok_bytes (inline (B "foo \-\- bar")) = Some (B "foo -- bar") /\
  isnone (ok_bytes (inline (B "foo \-\-\- bar"))) = false /\
  ok_bytes (inline (B "foo \-\-\- bar")) = Some (B "foo --- bar") /\
  isnone (ok_bytes (inline (B "foo \--- bar"))) = false /\
  ok_bytes (inline (B "foo \--- bar")) = Some (B "foo -&ndash; bar") /\
  isnone (ok_bytes (inline (B "foo \---- bar"))) = false /\
  ok_bytes (inline (B "foo \---- bar")) = Some (B "foo -&mdash; bar").
Proof. tests. Qed.

Example test_content_parse_inline_endash_emdash_2 :
  isnone (ok_bytes (inline (B "`foo -- bar`"))) = false /\
  ok_bytes (inline (B "`foo -- bar`")) = Some (B "<code>foo -- bar</code>") /\
  isnone (ok_bytes (inline (B "`foo --- bar`"))) = false /\
  ok_bytes (inline (B "`foo --- bar`")) = Some (B "<code>foo --- bar</code>") /\
  isnone (ok_bytes (inline (B "``foo -- bar``"))) = false /\
  ok_bytes (inline (B "``foo -- bar``")) = Some (B "<code>foo -- bar</code>") /\
  isnone (ok_bytes (inline (B "``foo --- bar``"))) = false /\
  ok_bytes (inline (B "``foo --- bar``")) = Some (B "<code>foo --- bar</code>").
Proof. tests. Qed.

(* ---------- tests/blogc/check_source_parser.c ---------- *)

Definition test_source_parse_text1 : bytes := B "VAR1: asd asd
VAR2: 123chunda
----------
# This is a test

bola
".
Definition test_source_parse_text2 : bytes := B "<h1 id=""this-is-a-test"">This is a test</h1>
<p>bola</p>
".
Example test_source_parse :
  isnone (src_err test_source_parse_text1 (source_parse 60 test_source_parse_text1 0%Z)) = true /\
  isnone (src_of (source_parse 60 test_source_parse_text1 0%Z)) = false /\
  size_ (src_of (source_parse 60 test_source_parse_text1 0%Z)) = 7 /\
  lookup_ (src_of (source_parse 60 test_source_parse_text1 0%Z)) (B "VAR1") = Some (B "asd asd") /\
  lookup_ (src_of (source_parse 60 test_source_parse_text1 0%Z)) (B "VAR2") = Some (B "123chunda") /\
  lookup_ (src_of (source_parse 60 test_source_parse_text1 0%Z)) (B "EXCERPT") = Some test_source_parse_text2 /\
  lookup_ (src_of (source_parse 60 test_source_parse_text1 0%Z)) (B "CONTENT") = Some test_source_parse_text2 /\
  lookup_ (src_of (source_parse 60 test_source_parse_text1 0%Z)) (B "RAW_CONTENT") = Some (B "# This is a test

bola
") /\
  lookup_ (src_of (source_parse 60 test_source_parse_text1 0%Z)) (B "FIRST_HEADER") = Some (B "This is a test") /\
  lookup_ (src_of (source_parse 60 test_source_parse_text1 0%Z)) (B "DESCRIPTION") = Some (B "bola") /\
  isnone (lookup_ (src_of (source_parse 60 test_source_parse_text1 0%Z)) (B "TOCTREE")) = true.
Proof. tests. Qed.

Definition test_source_parse_crlf_text1 : bytes := B "VAR1: asd asd" ++ [CR] ++ B "
VAR2: 123chunda" ++ [CR] ++ B "
----------" ++ [CR] ++ B "
# This is a test" ++ [CR] ++ B "
" ++ [CR] ++ B "
bola" ++ [CR] ++ B "
".
Definition test_source_parse_crlf_text2 : bytes := B "<h1 id=""this-is-a-test"">This is a test</h1>" ++ [CR] ++ B "
<p>bola</p>" ++ [CR] ++ B "
".
Example test_source_parse_crlf :
  isnone (src_err test_source_parse_crlf_text1 (source_parse 60 test_source_parse_crlf_text1 1%Z)) = true /\
  isnone (src_of (source_parse 60 test_source_parse_crlf_text1 1%Z)) = false /\
  size_ (src_of (source_parse 60 test_source_parse_crlf_text1 1%Z)) = 8 /\
  lookup_ (src_of (source_parse 60 test_source_parse_crlf_text1 1%Z)) (B "VAR1") = Some (B "asd asd") /\
  lookup_ (src_of (source_parse 60 test_source_parse_crlf_text1 1%Z)) (B "VAR2") = Some (B "123chunda") /\
  lookup_ (src_of (source_parse 60 test_source_parse_crlf_text1 1%Z)) (B "EXCERPT") = Some test_source_parse_crlf_text2 /\
  lookup_ (src_of (source_parse 60 test_source_parse_crlf_text1 1%Z)) (B "CONTENT") = Some test_source_parse_crlf_text2 /\
  lookup_ (src_of (source_parse 60 test_source_parse_crlf_text1 1%Z)) (B "RAW_CONTENT") = Some (B "# This is a test" ++ [CR] ++ B "
" ++ [CR] ++ B "
bola" ++ [CR] ++ B "
") /\
  lookup_ (src_of (source_parse 60 test_source_parse_crlf_text1 1%Z)) (B "FIRST_HEADER") = Some (B "This is a test") /\
  lookup_ (src_of (source_parse 60 test_source_parse_crlf_text1 1%Z)) (B "DESCRIPTION") = Some (B "bola") /\
  lookup_ (src_of (source_parse 60 test_source_parse_crlf_text1 1%Z)) (B "TOCTREE") = Some (B "<ul>" ++ [CR] ++ B "
    <li><a href=""#this-is-a-test"">This is a test</a></li>" ++ [CR] ++ B "
</ul>" ++ [CR] ++ B "
").
Proof. tests. Qed.

Definition test_source_parse_with_spaces_text1 : bytes := B "
  
VAR1: chunda     " ++ [TAB] ++ B "   


BOLA: guda
----------
# This is a test

bola
".
Definition test_source_parse_with_spaces_text2 : bytes := B "<h1 id=""this-is-a-test"">This is a test</h1>
<p>bola</p>
".
Example test_source_parse_with_spaces :
  isnone (src_err test_source_parse_with_spaces_text1 (source_parse 60 test_source_parse_with_spaces_text1 (-1)%Z)) = true /\
  isnone (src_of (source_parse 60 test_source_parse_with_spaces_text1 (-1)%Z)) = false /\
  size_ (src_of (source_parse 60 test_source_parse_with_spaces_text1 (-1)%Z)) = 8 /\
  lookup_ (src_of (source_parse 60 test_source_parse_with_spaces_text1 (-1)%Z)) (B "VAR1") = Some (B "chunda") /\
  lookup_ (src_of (source_parse 60 test_source_parse_with_spaces_text1 (-1)%Z)) (B "BOLA") = Some (B "guda") /\
  lookup_ (src_of (source_parse 60 test_source_parse_with_spaces_text1 (-1)%Z)) (B "EXCERPT") = Some test_source_parse_with_spaces_text2 /\
  lookup_ (src_of (source_parse 60 test_source_parse_with_spaces_text1 (-1)%Z)) (B "CONTENT") = Some test_source_parse_with_spaces_text2 /\
  lookup_ (src_of (source_parse 60 test_source_parse_with_spaces_text1 (-1)%Z)) (B "RAW_CONTENT") = Some (B "# This is a test

bola
") /\
  lookup_ (src_of (source_parse 60 test_source_parse_with_spaces_text1 (-1)%Z)) (B "FIRST_HEADER") = Some (B "This is a test") /\
  lookup_ (src_of (source_parse 60 test_source_parse_with_spaces_text1 (-1)%Z)) (B "DESCRIPTION") = Some (B "bola") /\
  lookup_ (src_of (source_parse 60 test_source_parse_with_spaces_text1 (-1)%Z)) (B "TOCTREE") = Some (B "<ul>
    <li><a href=""#this-is-a-test"">This is a test</a></li>
</ul>
").
Proof. tests. Qed.

Definition test_source_parse_with_excerpt_text1 : bytes := B "VAR1: asd asd
VAR2: 123chunda
----------
# This is a test

bola

...

guda
yay".
Example test_source_parse_with_excerpt :
  isnone (src_err test_source_parse_with_excerpt_text1 (source_parse 60 test_source_parse_with_excerpt_text1 0%Z)) = true /\
  isnone (src_of (source_parse 60 test_source_parse_with_excerpt_text1 0%Z)) = false /\
  size_ (src_of (source_parse 60 test_source_parse_with_excerpt_text1 0%Z)) = 7 /\
  lookup_ (src_of (source_parse 60 test_source_parse_with_excerpt_text1 0%Z)) (B "VAR1") = Some (B "asd asd") /\
  lookup_ (src_of (source_parse 60 test_source_parse_with_excerpt_text1 0%Z)) (B "VAR2") = Some (B "123chunda") /\
  lookup_ (src_of (source_parse 60 test_source_parse_with_excerpt_text1 0%Z)) (B "EXCERPT") = Some (B "<h1 id=""this-is-a-test"">This is a test</h1>
<p>bola</p>
") /\
  lookup_ (src_of (source_parse 60 test_source_parse_with_excerpt_text1 0%Z)) (B "CONTENT") = Some (B "<h1 id=""this-is-a-test"">This is a test</h1>
<p>bola</p>
<p>guda
yay</p>
") /\
  lookup_ (src_of (source_parse 60 test_source_parse_with_excerpt_text1 0%Z)) (B "RAW_CONTENT") = Some (B "# This is a test

bola

...

guda
yay") /\
  lookup_ (src_of (source_parse 60 test_source_parse_with_excerpt_text1 0%Z)) (B "FIRST_HEADER") = Some (B "This is a test") /\
  lookup_ (src_of (source_parse 60 test_source_parse_with_excerpt_text1 0%Z)) (B "DESCRIPTION") = Some (B "bola") /\
  isnone (lookup_ (src_of (source_parse 60 test_source_parse_with_excerpt_text1 0%Z)) (B "TOCTREE")) = true.
Proof. tests. Qed.

Definition test_source_parse_with_first_header_text1 : bytes := B "VAR1: asd asd
VAR2: 123chunda
FIRST_HEADER: THIS IS CHUNDA!
----------
# This is a test

bola
".
Definition test_source_parse_with_first_header_text2 : bytes := B "<h1 id=""this-is-a-test"">This is a test</h1>
<p>bola</p>
".
Example test_source_parse_with_first_header :
  isnone (src_err test_source_parse_with_first_header_text1 (source_parse 60 test_source_parse_with_first_header_text1 0%Z)) = true /\
  isnone (src_of (source_parse 60 test_source_parse_with_first_header_text1 0%Z)) = false /\
  size_ (src_of (source_parse 60 test_source_parse_with_first_header_text1 0%Z)) = 7 /\
  lookup_ (src_of (source_parse 60 test_source_parse_with_first_header_text1 0%Z)) (B "VAR1") = Some (B "asd asd") /\
  lookup_ (src_of (source_parse 60 test_source_parse_with_first_header_text1 0%Z)) (B "VAR2") = Some (B "123chunda") /\
  lookup_ (src_of (source_parse 60 test_source_parse_with_first_header_text1 0%Z)) (B "EXCERPT") = Some test_source_parse_with_first_header_text2 /\
  lookup_ (src_of (source_parse 60 test_source_parse_with_first_header_text1 0%Z)) (B "CONTENT") = Some test_source_parse_with_first_header_text2 /\
  lookup_ (src_of (source_parse 60 test_source_parse_with_first_header_text1 0%Z)) (B "RAW_CONTENT") = Some (B "# This is a test

bola
") /\
  lookup_ (src_of (source_parse 60 test_source_parse_with_first_header_text1 0%Z)) (B "FIRST_HEADER") = Some (B "THIS IS CHUNDA!") /\
  lookup_ (src_of (source_parse 60 test_source_parse_with_first_header_text1 0%Z)) (B "DESCRIPTION") = Some (B "bola") /\
  isnone (lookup_ (src_of (source_parse 60 test_source_parse_with_first_header_text1 0%Z)) (B "TOCTREE")) = true.
Proof. tests. Qed.

Definition test_source_parse_with_description_text1 : bytes := B "VAR1: asd asd
VAR2: 123chunda
DESCRIPTION: huehuehuebrbr
----------
# This is a test

bola
".
Definition test_source_parse_with_description_text2 : bytes := B "<h1 id=""this-is-a-test"">This is a test</h1>
<p>bola</p>
".
Example test_source_parse_with_description :
  isnone (src_err test_source_parse_with_description_text1 (source_parse 60 test_source_parse_with_description_text1 0%Z)) = true /\
  isnone (src_of (source_parse 60 test_source_parse_with_description_text1 0%Z)) = false /\
  size_ (src_of (source_parse 60 test_source_parse_with_description_text1 0%Z)) = 7 /\
  lookup_ (src_of (source_parse 60 test_source_parse_with_description_text1 0%Z)) (B "VAR1") = Some (B "asd asd") /\
  lookup_ (src_of (source_parse 60 test_source_parse_with_description_text1 0%Z)) (B "VAR2") = Some (B "123chunda") /\
  lookup_ (src_of (source_parse 60 test_source_parse_with_description_text1 0%Z)) (B "EXCERPT") = Some test_source_parse_with_description_text2 /\
  lookup_ (src_of (source_parse 60 test_source_parse_with_description_text1 0%Z)) (B "CONTENT") = Some test_source_parse_with_description_text2 /\
  lookup_ (src_of (source_parse 60 test_source_parse_with_description_text1 0%Z)) (B "RAW_CONTENT") = Some (B "# This is a test

bola
") /\
  lookup_ (src_of (source_parse 60 test_source_parse_with_description_text1 0%Z)) (B "FIRST_HEADER") = Some (B "This is a test") /\
  lookup_ (src_of (source_parse 60 test_source_parse_with_description_text1 0%Z)) (B "DESCRIPTION") = Some (B "huehuehuebrbr") /\
  isnone (lookup_ (src_of (source_parse 60 test_source_parse_with_description_text1 0%Z)) (B "TOCTREE")) = true.
Proof. tests. Qed.

Definition test_source_parse_with_toctree_text1 : bytes := B "VAR1: asd asd
VAR2: 123chunda
----------
### asd
### qwe
## zxc
### rty
#### bnm
### asd
".
Definition test_source_parse_with_toctree_text2 : bytes := B "<h3 id=""asd"">asd</h3>
<h3 id=""qwe"">qwe</h3>
<h2 id=""zxc"">zxc</h2>
<h3 id=""rty"">rty</h3>
<h4 id=""bnm"">bnm</h4>
<h3 id=""asd"">asd</h3>
".
Example test_source_parse_with_toctree :
  isnone (src_err test_source_parse_with_toctree_text1 (source_parse 60 test_source_parse_with_toctree_text1 (-1)%Z)) = true /\
  isnone (src_of (source_parse 60 test_source_parse_with_toctree_text1 (-1)%Z)) = false /\
  size_ (src_of (source_parse 60 test_source_parse_with_toctree_text1 (-1)%Z)) = 7 /\
  lookup_ (src_of (source_parse 60 test_source_parse_with_toctree_text1 (-1)%Z)) (B "VAR1") = Some (B "asd asd") /\
  lookup_ (src_of (source_parse 60 test_source_parse_with_toctree_text1 (-1)%Z)) (B "VAR2") = Some (B "123chunda") /\
  lookup_ (src_of (source_parse 60 test_source_parse_with_toctree_text1 (-1)%Z)) (B "EXCERPT") = Some test_source_parse_with_toctree_text2 /\
  lookup_ (src_of (source_parse 60 test_source_parse_with_toctree_text1 (-1)%Z)) (B "CONTENT") = Some test_source_parse_with_toctree_text2 /\
  lookup_ (src_of (source_parse 60 test_source_parse_with_toctree_text1 (-1)%Z)) (B "RAW_CONTENT") = Some (B "### asd
### qwe
## zxc
### rty
#### bnm
### asd
") /\
  lookup_ (src_of (source_parse 60 test_source_parse_with_toctree_text1 (-1)%Z)) (B "FIRST_HEADER") = Some (B "asd") /\
  lookup_ (src_of (source_parse 60 test_source_parse_with_toctree_text1 (-1)%Z)) (B "TOCTREE") = Some (B "<ul>
    <ul>
        <li><a href=""#asd"">asd</a></li>
        <li><a href=""#qwe"">qwe</a></li>
    </ul>
    <li><a href=""#zxc"">zxc</a></li>
    <ul>
        <li><a href=""#rty"">rty</a></li>
        <ul>
            <li><a href=""#bnm"">bnm</a></li>
        </ul>
        <li><a href=""#asd"">asd</a></li>
    </ul>
</ul>
").
Proof. tests. Qed.

Definition test_source_parse_with_toctree_noheader_text1 : bytes := B "VAR1: asd asd
VAR2: 123chunda
----------
asd
".
Example test_source_parse_with_toctree_noheader :
  isnone (src_err test_source_parse_with_toctree_noheader_text1 (source_parse 60 test_source_parse_with_toctree_noheader_text1 (-1)%Z)) = true /\
  isnone (src_of (source_parse 60 test_source_parse_with_toctree_noheader_text1 (-1)%Z)) = false /\
  size_ (src_of (source_parse 60 test_source_parse_with_toctree_noheader_text1 (-1)%Z)) = 6 /\
  lookup_ (src_of (source_parse 60 test_source_parse_with_toctree_noheader_text1 (-1)%Z)) (B "VAR1") = Some (B "asd asd") /\
  lookup_ (src_of (source_parse 60 test_source_parse_with_toctree_noheader_text1 (-1)%Z)) (B "VAR2") = Some (B "123chunda") /\
  lookup_ (src_of (source_parse 60 test_source_parse_with_toctree_noheader_text1 (-1)%Z)) (B "EXCERPT") = Some (B "<p>asd</p>
") /\
  lookup_ (src_of (source_parse 60 test_source_parse_with_toctree_noheader_text1 (-1)%Z)) (B "CONTENT") = Some (B "<p>asd</p>
") /\
  lookup_ (src_of (source_parse 60 test_source_parse_with_toctree_noheader_text1 (-1)%Z)) (B "RAW_CONTENT") = Some (B "asd
") /\
  isnone (lookup_ (src_of (source_parse 60 test_source_parse_with_toctree_noheader_text1 (-1)%Z)) (B "FIRST_HEADER")) = true /\
  isnone (lookup_ (src_of (source_parse 60 test_source_parse_with_toctree_noheader_text1 (-1)%Z)) (B "TOCTREE")) = true.
Proof. tests. Qed.

Definition test_source_parse_with_toctree_maxdepth1_text1 : bytes := B "VAR1: asd asd
VAR2: 123chunda
----------
### asd
### qwe
## zxc
### rty
#### bnm
### asd
".
Definition test_source_parse_with_toctree_maxdepth1_text2 : bytes := B "<h3 id=""asd"">asd</h3>
<h3 id=""qwe"">qwe</h3>
<h2 id=""zxc"">zxc</h2>
<h3 id=""rty"">rty</h3>
<h4 id=""bnm"">bnm</h4>
<h3 id=""asd"">asd</h3>
".
Example test_source_parse_with_toctree_maxdepth1 :
  isnone (src_err test_source_parse_with_toctree_maxdepth1_text1 (source_parse 60 test_source_parse_with_toctree_maxdepth1_text1 1%Z)) = true /\
  isnone (src_of (source_parse 60 test_source_parse_with_toctree_maxdepth1_text1 1%Z)) = false /\
  size_ (src_of (source_parse 60 test_source_parse_with_toctree_maxdepth1_text1 1%Z)) = 7 /\
  lookup_ (src_of (source_parse 60 test_source_parse_with_toctree_maxdepth1_text1 1%Z)) (B "VAR1") = Some (B "asd asd") /\
  lookup_ (src_of (source_parse 60 test_source_parse_with_toctree_maxdepth1_text1 1%Z)) (B "VAR2") = Some (B "123chunda") /\
  lookup_ (src_of (source_parse 60 test_source_parse_with_toctree_maxdepth1_text1 1%Z)) (B "EXCERPT") = Some test_source_parse_with_toctree_maxdepth1_text2 /\
  lookup_ (src_of (source_parse 60 test_source_parse_with_toctree_maxdepth1_text1 1%Z)) (B "CONTENT") = Some test_source_parse_with_toctree_maxdepth1_text2 /\
  lookup_ (src_of (source_parse 60 test_source_parse_with_toctree_maxdepth1_text1 1%Z)) (B "RAW_CONTENT") = Some (B "### asd
### qwe
## zxc
### rty
#### bnm
### asd
") /\
  lookup_ (src_of (source_parse 60 test_source_parse_with_toctree_maxdepth1_text1 1%Z)) (B "FIRST_HEADER") = Some (B "asd") /\
  lookup_ (src_of (source_parse 60 test_source_parse_with_toctree_maxdepth1_text1 1%Z)) (B "TOCTREE") = Some (B "<ul>
    <li><a href=""#zxc"">zxc</a></li>
</ul>
").
Proof. tests. Qed.

Definition test_source_parse_with_toctree_maxdepth_invalid_text1 : bytes := B "VAR1: asd asd
VAR2: 123chunda
TOCTREE_MAXDEPTH: bola
----------
### asd
### qwe
## zxc
### rty
#### bnm
### asd
".
Example test_source_parse_with_toctree_maxdepth_invalid :
  isnone (src_err test_source_parse_with_toctree_maxdepth_invalid_text1 (source_parse 60 test_source_parse_with_toctree_maxdepth_invalid_text1 1%Z)) = false /\
  isnone (src_of (source_parse 60 test_source_parse_with_toctree_maxdepth_invalid_text1 1%Z)) = true /\
  src_err test_source_parse_with_toctree_maxdepth_invalid_text1 (source_parse 60 test_source_parse_with_toctree_maxdepth_invalid_text1 1%Z) = Some (B "Invalid value for 'TOCTREE_MAXDEPTH' variable: bola.
Error occurred near line 10, position 8: ### asd").
Proof. tests. Qed.

Example test_source_parse_config_empty :
  isnone (src_of (source_parse 60 [] 0%Z)) = true /\
  isnone (src_err [] (source_parse 60 [] 0%Z)) = false /\
  src_err [] (source_parse 60 [] 0%Z) = Some (B "Your source file is empty.").
Proof. tests. Qed.

Example test_source_parse_config_invalid_key :
  isnone (src_err (B "bola: guda") (source_parse 60 (B "bola: guda") 0%Z)) = false /\
  src_err (B "bola: guda") (source_parse 60 (B "bola: guda") 0%Z) = Some (B "Can't find a configuration key or the content separator.
Error occurred near line 1, position 1: bola: guda").
Proof. tests. Qed.

Example test_source_parse_config_no_key :
  isnone (src_err (B "BOLa") (source_parse 60 (B "BOLa") 0%Z)) = false /\
  src_err (B "BOLa") (source_parse 60 (B "BOLa") 0%Z) = Some (B "Invalid configuration key.
Error occurred near line 1, position 4: BOLa").
Proof. tests. Qed.

Example test_source_parse_config_no_key2 :
  isnone (src_err (B "BOLA") (source_parse 60 (B "BOLA") 0%Z)) = false /\
  src_err (B "BOLA") (source_parse 60 (B "BOLA") 0%Z) = Some (B "Your last configuration key is missing ':' and the value
Error occurred near line 1, position 5: BOLA").
Proof. tests. Qed.

Example test_source_parse_config_no_value :
  isnone (src_of (source_parse 60 (B "BOLA:" ++ [CR] ++ B "
") 0%Z)) = false /\
  isnone (src_err (B "BOLA:" ++ [CR] ++ B "
") (source_parse 60 (B "BOLA:" ++ [CR] ++ B "
") 0%Z)) = true /\
  lookup_ (src_of (source_parse 60 (B "BOLA:" ++ [CR] ++ B "
") 0%Z)) (B "BOLA") = Some [] /\
  isnone (lookup_ (src_of (source_parse 60 (B "BOLA:" ++ [CR] ++ B "
") 0%Z)) (B "TOCTREE")) = true.
Proof. tests. Qed.

Example test_source_parse_config_no_value2 :
  isnone (src_of (source_parse 60 (B "BOLA:") 0%Z)) = true /\
  isnone (src_err (B "BOLA:") (source_parse 60 (B "BOLA:") 0%Z)) = false /\
  src_err (B "BOLA:") (source_parse 60 (B "BOLA:") 0%Z) = Some (B "Configuration value not provided for 'BOLA'.
Error occurred near line 1, position 6: BOLA:").
Proof. tests. Qed.

Example test_source_parse_config_reserved_name :
  isnone (src_of (source_parse 60 (B "FILENAME: asd" ++ [CR] ++ B "
") 0%Z)) = true /\
  isnone (src_err (B "FILENAME: asd" ++ [CR] ++ B "
") (source_parse 60 (B "FILENAME: asd" ++ [CR] ++ B "
") 0%Z)) = false /\
  src_err (B "FILENAME: asd" ++ [CR] ++ B "
") (source_parse 60 (B "FILENAME: asd" ++ [CR] ++ B "
") 0%Z) = Some (B "'FILENAME' variable is forbidden in source files. It will be set for you by the compiler.").
Proof. tests. Qed.

Example test_source_parse_config_reserved_name2 :
  isnone (src_of (source_parse 60 (B "CONTENT: asd" ++ [CR] ++ B "
") 0%Z)) = true /\
  isnone (src_err (B "CONTENT: asd" ++ [CR] ++ B "
") (source_parse 60 (B "CONTENT: asd" ++ [CR] ++ B "
") 0%Z)) = false /\
  src_err (B "CONTENT: asd" ++ [CR] ++ B "
") (source_parse 60 (B "CONTENT: asd" ++ [CR] ++ B "
") 0%Z) = Some (B "'CONTENT' variable is forbidden in source files. It will be set for you by the compiler.").
Proof. tests. Qed.

Example test_source_parse_config_reserved_name3 :
  isnone (src_of (source_parse 60 (B "DATE_FORMATTED: asd" ++ [CR] ++ B "
") 0%Z)) = true /\
  isnone (src_err (B "DATE_FORMATTED: asd" ++ [CR] ++ B "
") (source_parse 60 (B "DATE_FORMATTED: asd" ++ [CR] ++ B "
") 0%Z)) = false /\
  src_err (B "DATE_FORMATTED: asd" ++ [CR] ++ B "
") (source_parse 60 (B "DATE_FORMATTED: asd" ++ [CR] ++ B "
") 0%Z) = Some (B "'DATE_FORMATTED' variable is forbidden in source files. It will be set for you by the compiler.").
Proof. tests. Qed.

Example test_source_parse_config_reserved_name4 :
  isnone (src_of (source_parse 60 (B "DATE_FIRST_FORMATTED: asd" ++ [CR] ++ B "
") 0%Z)) = true /\
  isnone (src_err (B "DATE_FIRST_FORMATTED: asd" ++ [CR] ++ B "
") (source_parse 60 (B "DATE_FIRST_FORMATTED: asd" ++ [CR] ++ B "
") 0%Z)) = false /\
  src_err (B "DATE_FIRST_FORMATTED: asd" ++ [CR] ++ B "
") (source_parse 60 (B "DATE_FIRST_FORMATTED: asd" ++ [CR] ++ B "
") 0%Z) = Some (B "'DATE_FIRST_FORMATTED' variable is forbidden in source files. It will be set for you by the compiler.").
Proof. tests. Qed.

Example test_source_parse_config_reserved_name5 :
  isnone (src_of (source_parse 60 (B "DATE_LAST_FORMATTED: asd" ++ [CR] ++ B "
") 0%Z)) = true /\
  isnone (src_err (B "DATE_LAST_FORMATTED: asd" ++ [CR] ++ B "
") (source_parse 60 (B "DATE_LAST_FORMATTED: asd" ++ [CR] ++ B "
") 0%Z)) = false /\
  src_err (B "DATE_LAST_FORMATTED: asd" ++ [CR] ++ B "
") (source_parse 60 (B "DATE_LAST_FORMATTED: asd" ++ [CR] ++ B "
") 0%Z) = Some (B "'DATE_LAST_FORMATTED' variable is forbidden in source files. It will be set for you by the compiler.").
Proof. tests. Qed.

Example test_source_parse_config_reserved_name6 :
  isnone (src_of (source_parse 60 (B "PAGE_FIRST: asd" ++ [CR] ++ B "
") 0%Z)) = true /\
  isnone (src_err (B "PAGE_FIRST: asd" ++ [CR] ++ B "
") (source_parse 60 (B "PAGE_FIRST: asd" ++ [CR] ++ B "
") 0%Z)) = false /\
  src_err (B "PAGE_FIRST: asd" ++ [CR] ++ B "
") (source_parse 60 (B "PAGE_FIRST: asd" ++ [CR] ++ B "
") 0%Z) = Some (B "'PAGE_FIRST' variable is forbidden in source files. It will be set for you by the compiler.").
Proof. tests. Qed.

Example test_source_parse_config_reserved_name7 :
  isnone (src_of (source_parse 60 (B "PAGE_PREVIOUS: asd" ++ [CR] ++ B "
") 0%Z)) = true /\
  isnone (src_err (B "PAGE_PREVIOUS: asd" ++ [CR] ++ B "
") (source_parse 60 (B "PAGE_PREVIOUS: asd" ++ [CR] ++ B "
") 0%Z)) = false /\
  src_err (B "PAGE_PREVIOUS: asd" ++ [CR] ++ B "
") (source_parse 60 (B "PAGE_PREVIOUS: asd" ++ [CR] ++ B "
") 0%Z) = Some (B "'PAGE_PREVIOUS' variable is forbidden in source files. It will be set for you by the compiler.").
Proof. tests. Qed.

Example test_source_parse_config_reserved_name8 :
  isnone (src_of (source_parse 60 (B "PAGE_CURRENT: asd" ++ [CR] ++ B "
") 0%Z)) = true /\
  isnone (src_err (B "PAGE_CURRENT: asd" ++ [CR] ++ B "
") (source_parse 60 (B "PAGE_CURRENT: asd" ++ [CR] ++ B "
") 0%Z)) = false /\
  src_err (B "PAGE_CURRENT: asd" ++ [CR] ++ B "
") (source_parse 60 (B "PAGE_CURRENT: asd" ++ [CR] ++ B "
") 0%Z) = Some (B "'PAGE_CURRENT' variable is forbidden in source files. It will be set for you by the compiler.").
Proof. tests. Qed.

Example test_source_parse_config_reserved_name9 :
  isnone (src_of (source_parse 60 (B "PAGE_NEXT: asd" ++ [CR] ++ B "
") 0%Z)) = true /\
  isnone (src_err (B "PAGE_NEXT: asd" ++ [CR] ++ B "
") (source_parse 60 (B "PAGE_NEXT: asd" ++ [CR] ++ B "
") 0%Z)) = false /\
  src_err (B "PAGE_NEXT: asd" ++ [CR] ++ B "
") (source_parse 60 (B "PAGE_NEXT: asd" ++ [CR] ++ B "
") 0%Z) = Some (B "'PAGE_NEXT' variable is forbidden in source files. It will be set for you by the compiler.").
Proof. tests. Qed.

Example test_source_parse_config_reserved_name10 :
  isnone (src_of (source_parse 60 (B "PAGE_LAST: asd" ++ [CR] ++ B "
") 0%Z)) = true /\
  isnone (src_err (B "PAGE_LAST: asd" ++ [CR] ++ B "
") (source_parse 60 (B "PAGE_LAST: asd" ++ [CR] ++ B "
") 0%Z)) = false /\
  src_err (B "PAGE_LAST: asd" ++ [CR] ++ B "
") (source_parse 60 (B "PAGE_LAST: asd" ++ [CR] ++ B "
") 0%Z) = Some (B "'PAGE_LAST' variable is forbidden in source files. It will be set for you by the compiler.").
Proof. tests. Qed.

Example test_source_parse_config_reserved_name11 :
  isnone (src_of (source_parse 60 (B "BLOGC_VERSION: 1.0" ++ [CR] ++ B "
") 0%Z)) = true /\
  isnone (src_err (B "BLOGC_VERSION: 1.0" ++ [CR] ++ B "
") (source_parse 60 (B "BLOGC_VERSION: 1.0" ++ [CR] ++ B "
") 0%Z)) = false /\
  src_err (B "BLOGC_VERSION: 1.0" ++ [CR] ++ B "
") (source_parse 60 (B "BLOGC_VERSION: 1.0" ++ [CR] ++ B "
") 0%Z) = Some (B "'BLOGC_VERSION' variable is forbidden in source files. It will be set for you by the compiler.").
Proof. tests. Qed.

Example test_source_parse_config_value_no_line_ending :
  isnone (src_of (source_parse 60 (B "BOLA: asd") 0%Z)) = true /\
  isnone (src_err (B "BOLA: asd") (source_parse 60 (B "BOLA: asd") 0%Z)) = false /\
  src_err (B "BOLA: asd") (source_parse 60 (B "BOLA: asd") 0%Z) = Some (B "No line ending after the configuration value for 'BOLA'.
Error occurred near line 1, position 10: BOLA: asd").
Proof. tests. Qed.

Example test_source_parse_invalid_separator :
  isnone (src_of (source_parse 60 (B "BOLA: asd
---#") 0%Z)) = true /\
  isnone (src_err (B "BOLA: asd
---#") (source_parse 60 (B "BOLA: asd
---#") 0%Z)) = false /\
  src_err (B "BOLA: asd
---#") (source_parse 60 (B "BOLA: asd
---#") 0%Z) = Some (B "Invalid content separator. Must be more than one '-' characters.
Error occurred near line 2, position 4: ---#").
Proof. tests. Qed.

(* ---------- tests/blogc/check_loader.c ---------- *)

Example test_get_filename :
  get_filename (Some (B "/home/foo/asd/bola.txt")) = Some (B "bola") /\
  get_filename (Some (B "/home/foo/asd/bola.guda.txt")) = Some (B "bola.guda") /\
  get_filename (Some (B "bola.txt")) = Some (B "bola") /\
  get_filename (Some (B "bola.guda.txt")) = Some (B "bola.guda") /\
  get_filename (Some (B "/home/foo/asd/bola")) = Some (B "bola") /\
  get_filename (Some (B "bola")) = Some (B "bola") /\
  isnone (get_filename (Some [])) = true /\
  isnone (get_filename None) = true.
Proof. tests. Qed.

Example test_source_parse_from_file :
  isnone (loaded_of (source_parse_from_file (disk [((B "bola.txt"), (B "ASD: 123
--------
bola"))]) 60 trie_new (B "bola.txt"))) = false /\
  size_ (loaded_of (source_parse_from_file (disk [((B "bola.txt"), (B "ASD: 123
--------
bola"))]) 60 trie_new (B "bola.txt"))) = 6 /\
  lookup_ (loaded_of (source_parse_from_file (disk [((B "bola.txt"), (B "ASD: 123
--------
bola"))]) 60 trie_new (B "bola.txt"))) (B "ASD") = Some (B "123") /\
  lookup_ (loaded_of (source_parse_from_file (disk [((B "bola.txt"), (B "ASD: 123
--------
bola"))]) 60 trie_new (B "bola.txt"))) (B "FILENAME") = Some (B "bola") /\
  lookup_ (loaded_of (source_parse_from_file (disk [((B "bola.txt"), (B "ASD: 123
--------
bola"))]) 60 trie_new (B "bola.txt"))) (B "EXCERPT") = Some (B "<p>bola</p>
") /\
  lookup_ (loaded_of (source_parse_from_file (disk [((B "bola.txt"), (B "ASD: 123
--------
bola"))]) 60 trie_new (B "bola.txt"))) (B "CONTENT") = Some (B "<p>bola</p>
") /\
  lookup_ (loaded_of (source_parse_from_file (disk [((B "bola.txt"), (B "ASD: 123
--------
bola"))]) 60 trie_new (B "bola.txt"))) (B "RAW_CONTENT") = Some (B "bola") /\
  lookup_ (loaded_of (source_parse_from_file (disk [((B "bola.txt"), (B "ASD: 123
--------
bola"))]) 60 trie_new (B "bola.txt"))) (B "DESCRIPTION") = Some (B "bola").
Proof. tests. Qed.

Definition test_source_parse_from_file_maxdepth_text1 : bytes := B "ASD: 123
TOCTREE_MAXDEPTH: 1
--------
### bola
#### guda".
Definition test_source_parse_from_file_maxdepth_text2 : bytes := B "<h3 id=""bola"">bola</h3>
<h4 id=""guda"">guda</h4>
".
Example test_source_parse_from_file_maxdepth :
  isnone (loaded_of (source_parse_from_file (disk [((B "bola.txt"), test_source_parse_from_file_maxdepth_text1)]) 60 (trie_insert trie_new (B "TOCTREE_MAXDEPTH") (B "-1")) (B "bola.txt"))) = false /\
  size_ (loaded_of (source_parse_from_file (disk [((B "bola.txt"), test_source_parse_from_file_maxdepth_text1)]) 60 (trie_insert trie_new (B "TOCTREE_MAXDEPTH") (B "-1")) (B "bola.txt"))) = 8 /\
  lookup_ (loaded_of (source_parse_from_file (disk [((B "bola.txt"), test_source_parse_from_file_maxdepth_text1)]) 60 (trie_insert trie_new (B "TOCTREE_MAXDEPTH") (B "-1")) (B "bola.txt"))) (B "ASD") = Some (B "123") /\
  lookup_ (loaded_of (source_parse_from_file (disk [((B "bola.txt"), test_source_parse_from_file_maxdepth_text1)]) 60 (trie_insert trie_new (B "TOCTREE_MAXDEPTH") (B "-1")) (B "bola.txt"))) (B "TOCTREE_MAXDEPTH") = Some (B "1") /\
  lookup_ (loaded_of (source_parse_from_file (disk [((B "bola.txt"), test_source_parse_from_file_maxdepth_text1)]) 60 (trie_insert trie_new (B "TOCTREE_MAXDEPTH") (B "-1")) (B "bola.txt"))) (B "FILENAME") = Some (B "bola") /\
  lookup_ (loaded_of (source_parse_from_file (disk [((B "bola.txt"), test_source_parse_from_file_maxdepth_text1)]) 60 (trie_insert trie_new (B "TOCTREE_MAXDEPTH") (B "-1")) (B "bola.txt"))) (B "EXCERPT") = Some test_source_parse_from_file_maxdepth_text2 /\
  lookup_ (loaded_of (source_parse_from_file (disk [((B "bola.txt"), test_source_parse_from_file_maxdepth_text1)]) 60 (trie_insert trie_new (B "TOCTREE_MAXDEPTH") (B "-1")) (B "bola.txt"))) (B "CONTENT") = Some test_source_parse_from_file_maxdepth_text2 /\
  lookup_ (loaded_of (source_parse_from_file (disk [((B "bola.txt"), test_source_parse_from_file_maxdepth_text1)]) 60 (trie_insert trie_new (B "TOCTREE_MAXDEPTH") (B "-1")) (B "bola.txt"))) (B "RAW_CONTENT") = Some (B "### bola
#### guda") /\
  lookup_ (loaded_of (source_parse_from_file (disk [((B "bola.txt"), test_source_parse_from_file_maxdepth_text1)]) 60 (trie_insert trie_new (B "TOCTREE_MAXDEPTH") (B "-1")) (B "bola.txt"))) (B "FIRST_HEADER") = Some (B "bola") /\
  lookup_ (loaded_of (source_parse_from_file (disk [((B "bola.txt"), test_source_parse_from_file_maxdepth_text1)]) 60 (trie_insert trie_new (B "TOCTREE_MAXDEPTH") (B "-1")) (B "bola.txt"))) (B "TOCTREE") = Some (B "<ul>
    <li><a href=""#bola"">bola</a></li>
</ul>
").
Proof. tests. Qed.

Definition test_source_parse_from_file_maxdepth2_text1 : bytes := B "<h3 id=""bola"">bola</h3>
<h4 id=""guda"">guda</h4>
".
Example test_source_parse_from_file_maxdepth2 :
  isnone (loaded_of (source_parse_from_file (disk [((B "bola.txt"), (B "ASD: 123
--------
### bola
#### guda"))]) 60 (trie_insert trie_new (B "TOCTREE_MAXDEPTH") (B "1")) (B "bola.txt"))) = false /\
  size_ (loaded_of (source_parse_from_file (disk [((B "bola.txt"), (B "ASD: 123
--------
### bola
#### guda"))]) 60 (trie_insert trie_new (B "TOCTREE_MAXDEPTH") (B "1")) (B "bola.txt"))) = 7 /\
  lookup_ (loaded_of (source_parse_from_file (disk [((B "bola.txt"), (B "ASD: 123
--------
### bola
#### guda"))]) 60 (trie_insert trie_new (B "TOCTREE_MAXDEPTH") (B "1")) (B "bola.txt"))) (B "ASD") = Some (B "123") /\
  lookup_ (loaded_of (source_parse_from_file (disk [((B "bola.txt"), (B "ASD: 123
--------
### bola
#### guda"))]) 60 (trie_insert trie_new (B "TOCTREE_MAXDEPTH") (B "1")) (B "bola.txt"))) (B "FILENAME") = Some (B "bola") /\
  lookup_ (loaded_of (source_parse_from_file (disk [((B "bola.txt"), (B "ASD: 123
--------
### bola
#### guda"))]) 60 (trie_insert trie_new (B "TOCTREE_MAXDEPTH") (B "1")) (B "bola.txt"))) (B "EXCERPT") = Some test_source_parse_from_file_maxdepth2_text1 /\
  lookup_ (loaded_of (source_parse_from_file (disk [((B "bola.txt"), (B "ASD: 123
--------
### bola
#### guda"))]) 60 (trie_insert trie_new (B "TOCTREE_MAXDEPTH") (B "1")) (B "bola.txt"))) (B "CONTENT") = Some test_source_parse_from_file_maxdepth2_text1 /\
  lookup_ (loaded_of (source_parse_from_file (disk [((B "bola.txt"), (B "ASD: 123
--------
### bola
#### guda"))]) 60 (trie_insert trie_new (B "TOCTREE_MAXDEPTH") (B "1")) (B "bola.txt"))) (B "RAW_CONTENT") = Some (B "### bola
#### guda") /\
  lookup_ (loaded_of (source_parse_from_file (disk [((B "bola.txt"), (B "ASD: 123
--------
### bola
#### guda"))]) 60 (trie_insert trie_new (B "TOCTREE_MAXDEPTH") (B "1")) (B "bola.txt"))) (B "FIRST_HEADER") = Some (B "bola") /\
  lookup_ (loaded_of (source_parse_from_file (disk [((B "bola.txt"), (B "ASD: 123
--------
### bola
#### guda"))]) 60 (trie_insert trie_new (B "TOCTREE_MAXDEPTH") (B "1")) (B "bola.txt"))) (B "TOCTREE") = Some (B "<ul>
    <li><a href=""#bola"">bola</a></li>
</ul>
").
Proof. tests. Qed.

Example test_source_parse_from_file_null :
  isnone (loaded_of (source_parse_from_file (disk []) 60 trie_new (B "bola.txt"))) = true.
Proof. tests. Qed.

Definition test_source_parse_from_files_text1 : bytes := B "ASD: 123
DATE: 2001-02-03 04:05:06
--------
bola".
Definition test_source_parse_from_files_text2 : bytes := B "ASD: 456
DATE: 2002-02-03 04:05:06
--------
bola".
Definition test_source_parse_from_files_text3 : bytes := B "ASD: 789
DATE: 2003-02-03 04:05:06
--------
bola".
Example test_source_parse_from_files :
  isnone (listing_err (source_parse_from_files (disk [((B "bola1.txt"), test_source_parse_from_files_text1); ((B "bola2.txt"), test_source_parse_from_files_text2); ((B "bola3.txt"), test_source_parse_from_files_text3)]) (fun t => t) strftime_c 60 trie_new [(B "bola1.txt"); (B "bola2.txt"); (B "bola3.txt")])) = true /\
  Nat.leb (length (listing_of (source_parse_from_files (disk [((B "bola1.txt"), test_source_parse_from_files_text1); ((B "bola2.txt"), test_source_parse_from_files_text2); ((B "bola3.txt"), test_source_parse_from_files_text3)]) (fun t => t) strftime_c 60 trie_new [(B "bola1.txt"); (B "bola2.txt"); (B "bola3.txt")]))) 0 = false /\
  length (listing_of (source_parse_from_files (disk [((B "bola1.txt"), test_source_parse_from_files_text1); ((B "bola2.txt"), test_source_parse_from_files_text2); ((B "bola3.txt"), test_source_parse_from_files_text3)]) (fun t => t) strftime_c 60 trie_new [(B "bola1.txt"); (B "bola2.txt"); (B "bola3.txt")])) = 3 /\
  size_ (listing_conf trie_new (source_parse_from_files (disk [((B "bola1.txt"), test_source_parse_from_files_text1); ((B "bola2.txt"), test_source_parse_from_files_text2); ((B "bola3.txt"), test_source_parse_from_files_text3)]) (fun t => t) strftime_c 60 trie_new [(B "bola1.txt"); (B "bola2.txt"); (B "bola3.txt")])) = 4 /\
  lookup_ (listing_conf trie_new (source_parse_from_files (disk [((B "bola1.txt"), test_source_parse_from_files_text1); ((B "bola2.txt"), test_source_parse_from_files_text2); ((B "bola3.txt"), test_source_parse_from_files_text3)]) (fun t => t) strftime_c 60 trie_new [(B "bola1.txt"); (B "bola2.txt"); (B "bola3.txt")])) (B "FILENAME_FIRST") = Some (B "bola1") /\
  lookup_ (listing_conf trie_new (source_parse_from_files (disk [((B "bola1.txt"), test_source_parse_from_files_text1); ((B "bola2.txt"), test_source_parse_from_files_text2); ((B "bola3.txt"), test_source_parse_from_files_text3)]) (fun t => t) strftime_c 60 trie_new [(B "bola1.txt"); (B "bola2.txt"); (B "bola3.txt")])) (B "FILENAME_LAST") = Some (B "bola3") /\
  lookup_ (listing_conf trie_new (source_parse_from_files (disk [((B "bola1.txt"), test_source_parse_from_files_text1); ((B "bola2.txt"), test_source_parse_from_files_text2); ((B "bola3.txt"), test_source_parse_from_files_text3)]) (fun t => t) strftime_c 60 trie_new [(B "bola1.txt"); (B "bola2.txt"); (B "bola3.txt")])) (B "DATE_FIRST") = Some (B "2001-02-03 04:05:06") /\
  lookup_ (listing_conf trie_new (source_parse_from_files (disk [((B "bola1.txt"), test_source_parse_from_files_text1); ((B "bola2.txt"), test_source_parse_from_files_text2); ((B "bola3.txt"), test_source_parse_from_files_text3)]) (fun t => t) strftime_c 60 trie_new [(B "bola1.txt"); (B "bola2.txt"); (B "bola3.txt")])) (B "DATE_LAST") = Some (B "2003-02-03 04:05:06").
Proof. tests. Qed.

Definition test_source_parse_from_files_filter_sort_text1 : bytes := B "ASD: 123
DATE: 2001-02-02 04:05:06
--------
bola".
Definition test_source_parse_from_files_filter_sort_text2 : bytes := B "ASD: 456
DATE: 2001-02-01 04:05:06
--------
bola".
Definition test_source_parse_from_files_filter_sort_text3 : bytes := B "ASD: 789
DATE: 2011-02-03 04:05:06
--------
bola".
Example test_source_parse_from_files_filter_sort :
  isnone (listing_err (source_parse_from_files (disk [((B "bola1.txt"), test_source_parse_from_files_filter_sort_text1); ((B "bola2.txt"), test_source_parse_from_files_filter_sort_text2); ((B "bola3.txt"), test_source_parse_from_files_filter_sort_text3)]) (fun t => t) strftime_c 60 (trie_insert trie_new (B "FILTER_SORT") (B "1")) [(B "bola1.txt"); (B "bola2.txt"); (B "bola3.txt")])) = true /\
  Nat.leb (length (listing_of (source_parse_from_files (disk [((B "bola1.txt"), test_source_parse_from_files_filter_sort_text1); ((B "bola2.txt"), test_source_parse_from_files_filter_sort_text2); ((B "bola3.txt"), test_source_parse_from_files_filter_sort_text3)]) (fun t => t) strftime_c 60 (trie_insert trie_new (B "FILTER_SORT") (B "1")) [(B "bola1.txt"); (B "bola2.txt"); (B "bola3.txt")]))) 0 = false /\
  length (listing_of (source_parse_from_files (disk [((B "bola1.txt"), test_source_parse_from_files_filter_sort_text1); ((B "bola2.txt"), test_source_parse_from_files_filter_sort_text2); ((B "bola3.txt"), test_source_parse_from_files_filter_sort_text3)]) (fun t => t) strftime_c 60 (trie_insert trie_new (B "FILTER_SORT") (B "1")) [(B "bola1.txt"); (B "bola2.txt"); (B "bola3.txt")])) = 3 /\
  size_ (listing_conf (trie_insert trie_new (B "FILTER_SORT") (B "1")) (source_parse_from_files (disk [((B "bola1.txt"), test_source_parse_from_files_filter_sort_text1); ((B "bola2.txt"), test_source_parse_from_files_filter_sort_text2); ((B "bola3.txt"), test_source_parse_from_files_filter_sort_text3)]) (fun t => t) strftime_c 60 (trie_insert trie_new (B "FILTER_SORT") (B "1")) [(B "bola1.txt"); (B "bola2.txt"); (B "bola3.txt")])) = 5 /\
  lookup_ (listing_conf (trie_insert trie_new (B "FILTER_SORT") (B "1")) (source_parse_from_files (disk [((B "bola1.txt"), test_source_parse_from_files_filter_sort_text1); ((B "bola2.txt"), test_source_parse_from_files_filter_sort_text2); ((B "bola3.txt"), test_source_parse_from_files_filter_sort_text3)]) (fun t => t) strftime_c 60 (trie_insert trie_new (B "FILTER_SORT") (B "1")) [(B "bola1.txt"); (B "bola2.txt"); (B "bola3.txt")])) (B "FILTER_SORT") = Some (B "1") /\
  lookup_ (listing_conf (trie_insert trie_new (B "FILTER_SORT") (B "1")) (source_parse_from_files (disk [((B "bola1.txt"), test_source_parse_from_files_filter_sort_text1); ((B "bola2.txt"), test_source_parse_from_files_filter_sort_text2); ((B "bola3.txt"), test_source_parse_from_files_filter_sort_text3)]) (fun t => t) strftime_c 60 (trie_insert trie_new (B "FILTER_SORT") (B "1")) [(B "bola1.txt"); (B "bola2.txt"); (B "bola3.txt")])) (B "FILENAME_FIRST") = Some (B "bola3") /\
  lookup_ (listing_conf (trie_insert trie_new (B "FILTER_SORT") (B "1")) (source_parse_from_files (disk [((B "bola1.txt"), test_source_parse_from_files_filter_sort_text1); ((B "bola2.txt"), test_source_parse_from_files_filter_sort_text2); ((B "bola3.txt"), test_source_parse_from_files_filter_sort_text3)]) (fun t => t) strftime_c 60 (trie_insert trie_new (B "FILTER_SORT") (B "1")) [(B "bola1.txt"); (B "bola2.txt"); (B "bola3.txt")])) (B "FILENAME_LAST") = Some (B "bola2") /\
  lookup_ (listing_conf (trie_insert trie_new (B "FILTER_SORT") (B "1")) (source_parse_from_files (disk [((B "bola1.txt"), test_source_parse_from_files_filter_sort_text1); ((B "bola2.txt"), test_source_parse_from_files_filter_sort_text2); ((B "bola3.txt"), test_source_parse_from_files_filter_sort_text3)]) (fun t => t) strftime_c 60 (trie_insert trie_new (B "FILTER_SORT") (B "1")) [(B "bola1.txt"); (B "bola2.txt"); (B "bola3.txt")])) (B "DATE_FIRST") = Some (B "2011-02-03 04:05:06") /\
  lookup_ (listing_conf (trie_insert trie_new (B "FILTER_SORT") (B "1")) (source_parse_from_files (disk [((B "bola1.txt"), test_source_parse_from_files_filter_sort_text1); ((B "bola2.txt"), test_source_parse_from_files_filter_sort_text2); ((B "bola3.txt"), test_source_parse_from_files_filter_sort_text3)]) (fun t => t) strftime_c 60 (trie_insert trie_new (B "FILTER_SORT") (B "1")) [(B "bola1.txt"); (B "bola2.txt"); (B "bola3.txt")])) (B "DATE_LAST") = Some (B "2001-02-01 04:05:06").
Proof. tests. Qed.

Definition test_source_parse_from_files_filter_reverse_text1 : bytes := B "ASD: 123
DATE: 2001-02-03 04:05:06
TAGS: chunda
--------
bola".
Definition test_source_parse_from_files_filter_reverse_text2 : bytes := B "ASD: 456
DATE: 2002-02-03 04:05:06
TAGS: bola, chunda
--------
bola".
Definition test_source_parse_from_files_filter_reverse_text3 : bytes := B "ASD: 789
DATE: 2003-02-03 04:05:06
--------
bola".
Example test_source_parse_from_files_filter_reverse :
  isnone (listing_err (source_parse_from_files (disk [((B "bola1.txt"), test_source_parse_from_files_filter_reverse_text1); ((B "bola2.txt"), test_source_parse_from_files_filter_reverse_text2); ((B "bola3.txt"), test_source_parse_from_files_filter_reverse_text3)]) (fun t => t) strftime_c 60 (trie_insert trie_new (B "FILTER_REVERSE") (B "1")) [(B "bola1.txt"); (B "bola2.txt"); (B "bola3.txt")])) = true /\
  Nat.leb (length (listing_of (source_parse_from_files (disk [((B "bola1.txt"), test_source_parse_from_files_filter_reverse_text1); ((B "bola2.txt"), test_source_parse_from_files_filter_reverse_text2); ((B "bola3.txt"), test_source_parse_from_files_filter_reverse_text3)]) (fun t => t) strftime_c 60 (trie_insert trie_new (B "FILTER_REVERSE") (B "1")) [(B "bola1.txt"); (B "bola2.txt"); (B "bola3.txt")]))) 0 = false /\
  length (listing_of (source_parse_from_files (disk [((B "bola1.txt"), test_source_parse_from_files_filter_reverse_text1); ((B "bola2.txt"), test_source_parse_from_files_filter_reverse_text2); ((B "bola3.txt"), test_source_parse_from_files_filter_reverse_text3)]) (fun t => t) strftime_c 60 (trie_insert trie_new (B "FILTER_REVERSE") (B "1")) [(B "bola1.txt"); (B "bola2.txt"); (B "bola3.txt")])) = 3 /\
  size_ (listing_conf (trie_insert trie_new (B "FILTER_REVERSE") (B "1")) (source_parse_from_files (disk [((B "bola1.txt"), test_source_parse_from_files_filter_reverse_text1); ((B "bola2.txt"), test_source_parse_from_files_filter_reverse_text2); ((B "bola3.txt"), test_source_parse_from_files_filter_reverse_text3)]) (fun t => t) strftime_c 60 (trie_insert trie_new (B "FILTER_REVERSE") (B "1")) [(B "bola1.txt"); (B "bola2.txt"); (B "bola3.txt")])) = 5 /\
  lookup_ (listing_conf (trie_insert trie_new (B "FILTER_REVERSE") (B "1")) (source_parse_from_files (disk [((B "bola1.txt"), test_source_parse_from_files_filter_reverse_text1); ((B "bola2.txt"), test_source_parse_from_files_filter_reverse_text2); ((B "bola3.txt"), test_source_parse_from_files_filter_reverse_text3)]) (fun t => t) strftime_c 60 (trie_insert trie_new (B "FILTER_REVERSE") (B "1")) [(B "bola1.txt"); (B "bola2.txt"); (B "bola3.txt")])) (B "FILENAME_FIRST") = Some (B "bola3") /\
  lookup_ (listing_conf (trie_insert trie_new (B "FILTER_REVERSE") (B "1")) (source_parse_from_files (disk [((B "bola1.txt"), test_source_parse_from_files_filter_reverse_text1); ((B "bola2.txt"), test_source_parse_from_files_filter_reverse_text2); ((B "bola3.txt"), test_source_parse_from_files_filter_reverse_text3)]) (fun t => t) strftime_c 60 (trie_insert trie_new (B "FILTER_REVERSE") (B "1")) [(B "bola1.txt"); (B "bola2.txt"); (B "bola3.txt")])) (B "FILENAME_LAST") = Some (B "bola1") /\
  lookup_ (listing_conf (trie_insert trie_new (B "FILTER_REVERSE") (B "1")) (source_parse_from_files (disk [((B "bola1.txt"), test_source_parse_from_files_filter_reverse_text1); ((B "bola2.txt"), test_source_parse_from_files_filter_reverse_text2); ((B "bola3.txt"), test_source_parse_from_files_filter_reverse_text3)]) (fun t => t) strftime_c 60 (trie_insert trie_new (B "FILTER_REVERSE") (B "1")) [(B "bola1.txt"); (B "bola2.txt"); (B "bola3.txt")])) (B "DATE_FIRST") = Some (B "2003-02-03 04:05:06") /\
  lookup_ (listing_conf (trie_insert trie_new (B "FILTER_REVERSE") (B "1")) (source_parse_from_files (disk [((B "bola1.txt"), test_source_parse_from_files_filter_reverse_text1); ((B "bola2.txt"), test_source_parse_from_files_filter_reverse_text2); ((B "bola3.txt"), test_source_parse_from_files_filter_reverse_text3)]) (fun t => t) strftime_c 60 (trie_insert trie_new (B "FILTER_REVERSE") (B "1")) [(B "bola1.txt"); (B "bola2.txt"); (B "bola3.txt")])) (B "DATE_LAST") = Some (B "2001-02-03 04:05:06") /\
  lookup_ (listing_conf (trie_insert trie_new (B "FILTER_REVERSE") (B "1")) (source_parse_from_files (disk [((B "bola1.txt"), test_source_parse_from_files_filter_reverse_text1); ((B "bola2.txt"), test_source_parse_from_files_filter_reverse_text2); ((B "bola3.txt"), test_source_parse_from_files_filter_reverse_text3)]) (fun t => t) strftime_c 60 (trie_insert trie_new (B "FILTER_REVERSE") (B "1")) [(B "bola1.txt"); (B "bola2.txt"); (B "bola3.txt")])) (B "FILTER_REVERSE") = Some (B "1").
Proof. tests. Qed.

Definition test_source_parse_from_files_filter_sort_reverse_text1 : bytes := B "ASD: 123
DATE: 2001-02-02 04:05:06
--------
bola".
Definition test_source_parse_from_files_filter_sort_reverse_text2 : bytes := B "ASD: 456
DATE: 2001-02-01 04:05:06
--------
bola".
Definition test_source_parse_from_files_filter_sort_reverse_text3 : bytes := B "ASD: 789
DATE: 2011-02-03 04:05:06
--------
bola".
Example test_source_parse_from_files_filter_sort_reverse :
  isnone (listing_err (source_parse_from_files (disk [((B "bola1.txt"), test_source_parse_from_files_filter_sort_reverse_text1); ((B "bola2.txt"), test_source_parse_from_files_filter_sort_reverse_text2); ((B "bola3.txt"), test_source_parse_from_files_filter_sort_reverse_text3)]) (fun t => t) strftime_c 60 (trie_insert (trie_insert trie_new (B "FILTER_SORT") (B "1")) (B "FILTER_REVERSE") (B "1")) [(B "bola1.txt"); (B "bola2.txt"); (B "bola3.txt")])) = true /\
  Nat.leb (length (listing_of (source_parse_from_files (disk [((B "bola1.txt"), test_source_parse_from_files_filter_sort_reverse_text1); ((B "bola2.txt"), test_source_parse_from_files_filter_sort_reverse_text2); ((B "bola3.txt"), test_source_parse_from_files_filter_sort_reverse_text3)]) (fun t => t) strftime_c 60 (trie_insert (trie_insert trie_new (B "FILTER_SORT") (B "1")) (B "FILTER_REVERSE") (B "1")) [(B "bola1.txt"); (B "bola2.txt"); (B "bola3.txt")]))) 0 = false /\
  length (listing_of (source_parse_from_files (disk [((B "bola1.txt"), test_source_parse_from_files_filter_sort_reverse_text1); ((B "bola2.txt"), test_source_parse_from_files_filter_sort_reverse_text2); ((B "bola3.txt"), test_source_parse_from_files_filter_sort_reverse_text3)]) (fun t => t) strftime_c 60 (trie_insert (trie_insert trie_new (B "FILTER_SORT") (B "1")) (B "FILTER_REVERSE") (B "1")) [(B "bola1.txt"); (B "bola2.txt"); (B "bola3.txt")])) = 3 /\
  size_ (listing_conf (trie_insert (trie_insert trie_new (B "FILTER_SORT") (B "1")) (B "FILTER_REVERSE") (B "1")) (source_parse_from_files (disk [((B "bola1.txt"), test_source_parse_from_files_filter_sort_reverse_text1); ((B "bola2.txt"), test_source_parse_from_files_filter_sort_reverse_text2); ((B "bola3.txt"), test_source_parse_from_files_filter_sort_reverse_text3)]) (fun t => t) strftime_c 60 (trie_insert (trie_insert trie_new (B "FILTER_SORT") (B "1")) (B "FILTER_REVERSE") (B "1")) [(B "bola1.txt"); (B "bola2.txt"); (B "bola3.txt")])) = 6 /\
  lookup_ (listing_conf (trie_insert (trie_insert trie_new (B "FILTER_SORT") (B "1")) (B "FILTER_REVERSE") (B "1")) (source_parse_from_files (disk [((B "bola1.txt"), test_source_parse_from_files_filter_sort_reverse_text1); ((B "bola2.txt"), test_source_parse_from_files_filter_sort_reverse_text2); ((B "bola3.txt"), test_source_parse_from_files_filter_sort_reverse_text3)]) (fun t => t) strftime_c 60 (trie_insert (trie_insert trie_new (B "FILTER_SORT") (B "1")) (B "FILTER_REVERSE") (B "1")) [(B "bola1.txt"); (B "bola2.txt"); (B "bola3.txt")])) (B "FILTER_SORT") = Some (B "1") /\
  lookup_ (listing_conf (trie_insert (trie_insert trie_new (B "FILTER_SORT") (B "1")) (B "FILTER_REVERSE") (B "1")) (source_parse_from_files (disk [((B "bola1.txt"), test_source_parse_from_files_filter_sort_reverse_text1); ((B "bola2.txt"), test_source_parse_from_files_filter_sort_reverse_text2); ((B "bola3.txt"), test_source_parse_from_files_filter_sort_reverse_text3)]) (fun t => t) strftime_c 60 (trie_insert (trie_insert trie_new (B "FILTER_SORT") (B "1")) (B "FILTER_REVERSE") (B "1")) [(B "bola1.txt"); (B "bola2.txt"); (B "bola3.txt")])) (B "FILTER_REVERSE") = Some (B "1") /\
  lookup_ (listing_conf (trie_insert (trie_insert trie_new (B "FILTER_SORT") (B "1")) (B "FILTER_REVERSE") (B "1")) (source_parse_from_files (disk [((B "bola1.txt"), test_source_parse_from_files_filter_sort_reverse_text1); ((B "bola2.txt"), test_source_parse_from_files_filter_sort_reverse_text2); ((B "bola3.txt"), test_source_parse_from_files_filter_sort_reverse_text3)]) (fun t => t) strftime_c 60 (trie_insert (trie_insert trie_new (B "FILTER_SORT") (B "1")) (B "FILTER_REVERSE") (B "1")) [(B "bola1.txt"); (B "bola2.txt"); (B "bola3.txt")])) (B "FILENAME_FIRST") = Some (B "bola2") /\
  lookup_ (listing_conf (trie_insert (trie_insert trie_new (B "FILTER_SORT") (B "1")) (B "FILTER_REVERSE") (B "1")) (source_parse_from_files (disk [((B "bola1.txt"), test_source_parse_from_files_filter_sort_reverse_text1); ((B "bola2.txt"), test_source_parse_from_files_filter_sort_reverse_text2); ((B "bola3.txt"), test_source_parse_from_files_filter_sort_reverse_text3)]) (fun t => t) strftime_c 60 (trie_insert (trie_insert trie_new (B "FILTER_SORT") (B "1")) (B "FILTER_REVERSE") (B "1")) [(B "bola1.txt"); (B "bola2.txt"); (B "bola3.txt")])) (B "FILENAME_LAST") = Some (B "bola3") /\
  lookup_ (listing_conf (trie_insert (trie_insert trie_new (B "FILTER_SORT") (B "1")) (B "FILTER_REVERSE") (B "1")) (source_parse_from_files (disk [((B "bola1.txt"), test_source_parse_from_files_filter_sort_reverse_text1); ((B "bola2.txt"), test_source_parse_from_files_filter_sort_reverse_text2); ((B "bola3.txt"), test_source_parse_from_files_filter_sort_reverse_text3)]) (fun t => t) strftime_c 60 (trie_insert (trie_insert trie_new (B "FILTER_SORT") (B "1")) (B "FILTER_REVERSE") (B "1")) [(B "bola1.txt"); (B "bola2.txt"); (B "bola3.txt")])) (B "DATE_FIRST") = Some (B "2001-02-01 04:05:06") /\
  lookup_ (listing_conf (trie_insert (trie_insert trie_new (B "FILTER_SORT") (B "1")) (B "FILTER_REVERSE") (B "1")) (source_parse_from_files (disk [((B "bola1.txt"), test_source_parse_from_files_filter_sort_reverse_text1); ((B "bola2.txt"), test_source_parse_from_files_filter_sort_reverse_text2); ((B "bola3.txt"), test_source_parse_from_files_filter_sort_reverse_text3)]) (fun t => t) strftime_c 60 (trie_insert (trie_insert trie_new (B "FILTER_SORT") (B "1")) (B "FILTER_REVERSE") (B "1")) [(B "bola1.txt"); (B "bola2.txt"); (B "bola3.txt")])) (B "DATE_LAST") = Some (B "2011-02-03 04:05:06").
Proof. tests. Qed.

Definition test_source_parse_from_files_filter_by_tag_text1 : bytes := B "ASD: 123
DATE: 2001-02-03 04:05:06
TAGS: chunda
--------
bola".
Definition test_source_parse_from_files_filter_by_tag_text2 : bytes := B "ASD: 456
DATE: 2002-02-03 04:05:06
TAGS: bola, chunda
--------
bola".
Definition test_source_parse_from_files_filter_by_tag_text3 : bytes := B "ASD: 789
DATE: 2003-02-03 04:05:06
--------
bola".
Example test_source_parse_from_files_filter_by_tag :
  isnone (listing_err (source_parse_from_files (disk [((B "bola1.txt"), test_source_parse_from_files_filter_by_tag_text1); ((B "bola2.txt"), test_source_parse_from_files_filter_by_tag_text2); ((B "bola3.txt"), test_source_parse_from_files_filter_by_tag_text3)]) (fun t => t) strftime_c 60 (trie_insert trie_new (B "FILTER_TAG") (B "chunda")) [(B "bola1.txt"); (B "bola2.txt"); (B "bola3.txt")])) = true /\
  Nat.leb (length (listing_of (source_parse_from_files (disk [((B "bola1.txt"), test_source_parse_from_files_filter_by_tag_text1); ((B "bola2.txt"), test_source_parse_from_files_filter_by_tag_text2); ((B "bola3.txt"), test_source_parse_from_files_filter_by_tag_text3)]) (fun t => t) strftime_c 60 (trie_insert trie_new (B "FILTER_TAG") (B "chunda")) [(B "bola1.txt"); (B "bola2.txt"); (B "bola3.txt")]))) 0 = false /\
  length (listing_of (source_parse_from_files (disk [((B "bola1.txt"), test_source_parse_from_files_filter_by_tag_text1); ((B "bola2.txt"), test_source_parse_from_files_filter_by_tag_text2); ((B "bola3.txt"), test_source_parse_from_files_filter_by_tag_text3)]) (fun t => t) strftime_c 60 (trie_insert trie_new (B "FILTER_TAG") (B "chunda")) [(B "bola1.txt"); (B "bola2.txt"); (B "bola3.txt")])) = 2 /\
  size_ (listing_conf (trie_insert trie_new (B "FILTER_TAG") (B "chunda")) (source_parse_from_files (disk [((B "bola1.txt"), test_source_parse_from_files_filter_by_tag_text1); ((B "bola2.txt"), test_source_parse_from_files_filter_by_tag_text2); ((B "bola3.txt"), test_source_parse_from_files_filter_by_tag_text3)]) (fun t => t) strftime_c 60 (trie_insert trie_new (B "FILTER_TAG") (B "chunda")) [(B "bola1.txt"); (B "bola2.txt"); (B "bola3.txt")])) = 5 /\
  lookup_ (listing_conf (trie_insert trie_new (B "FILTER_TAG") (B "chunda")) (source_parse_from_files (disk [((B "bola1.txt"), test_source_parse_from_files_filter_by_tag_text1); ((B "bola2.txt"), test_source_parse_from_files_filter_by_tag_text2); ((B "bola3.txt"), test_source_parse_from_files_filter_by_tag_text3)]) (fun t => t) strftime_c 60 (trie_insert trie_new (B "FILTER_TAG") (B "chunda")) [(B "bola1.txt"); (B "bola2.txt"); (B "bola3.txt")])) (B "FILENAME_FIRST") = Some (B "bola1") /\
  lookup_ (listing_conf (trie_insert trie_new (B "FILTER_TAG") (B "chunda")) (source_parse_from_files (disk [((B "bola1.txt"), test_source_parse_from_files_filter_by_tag_text1); ((B "bola2.txt"), test_source_parse_from_files_filter_by_tag_text2); ((B "bola3.txt"), test_source_parse_from_files_filter_by_tag_text3)]) (fun t => t) strftime_c 60 (trie_insert trie_new (B "FILTER_TAG") (B "chunda")) [(B "bola1.txt"); (B "bola2.txt"); (B "bola3.txt")])) (B "FILENAME_LAST") = Some (B "bola2") /\
  lookup_ (listing_conf (trie_insert trie_new (B "FILTER_TAG") (B "chunda")) (source_parse_from_files (disk [((B "bola1.txt"), test_source_parse_from_files_filter_by_tag_text1); ((B "bola2.txt"), test_source_parse_from_files_filter_by_tag_text2); ((B "bola3.txt"), test_source_parse_from_files_filter_by_tag_text3)]) (fun t => t) strftime_c 60 (trie_insert trie_new (B "FILTER_TAG") (B "chunda")) [(B "bola1.txt"); (B "bola2.txt"); (B "bola3.txt")])) (B "DATE_FIRST") = Some (B "2001-02-03 04:05:06") /\
  lookup_ (listing_conf (trie_insert trie_new (B "FILTER_TAG") (B "chunda")) (source_parse_from_files (disk [((B "bola1.txt"), test_source_parse_from_files_filter_by_tag_text1); ((B "bola2.txt"), test_source_parse_from_files_filter_by_tag_text2); ((B "bola3.txt"), test_source_parse_from_files_filter_by_tag_text3)]) (fun t => t) strftime_c 60 (trie_insert trie_new (B "FILTER_TAG") (B "chunda")) [(B "bola1.txt"); (B "bola2.txt"); (B "bola3.txt")])) (B "DATE_LAST") = Some (B "2002-02-03 04:05:06") /\
  lookup_ (listing_conf (trie_insert trie_new (B "FILTER_TAG") (B "chunda")) (source_parse_from_files (disk [((B "bola1.txt"), test_source_parse_from_files_filter_by_tag_text1); ((B "bola2.txt"), test_source_parse_from_files_filter_by_tag_text2); ((B "bola3.txt"), test_source_parse_from_files_filter_by_tag_text3)]) (fun t => t) strftime_c 60 (trie_insert trie_new (B "FILTER_TAG") (B "chunda")) [(B "bola1.txt"); (B "bola2.txt"); (B "bola3.txt")])) (B "FILTER_TAG") = Some (B "chunda").
Proof. tests. Qed.

Definition test_source_parse_from_files_filter_by_page_text1 : bytes := B "ASD: 123
DATE: 2001-02-03 04:05:06
--------
bola".
Definition test_source_parse_from_files_filter_by_page_text2 : bytes := B "ASD: 456
DATE: 2002-02-03 04:05:06
--------
bola".
Definition test_source_parse_from_files_filter_by_page_text3 : bytes := B "ASD: 789
DATE: 2003-02-03 04:05:06
--------
bola".
Definition test_source_parse_from_files_filter_by_page_text4 : bytes := B "ASD: 7891
DATE: 2004-02-03 04:05:06
--------
bola".
Definition test_source_parse_from_files_filter_by_page_text5 : bytes := B "ASD: 7892
DATE: 2005-02-03 04:05:06
--------
bola".
Definition test_source_parse_from_files_filter_by_page_text6 : bytes := B "ASD: 7893
DATE: 2006-02-03 04:05:06
--------
bola".
Definition test_source_parse_from_files_filter_by_page_text7 : bytes := B "ASD: 7894
DATE: 2007-02-03 04:05:06
--------
bola".
Example test_source_parse_from_files_filter_by_page :
  isnone (listing_err (source_parse_from_files (disk [((B "bola1.txt"), test_source_parse_from_files_filter_by_page_text1); ((B "bola2.txt"), test_source_parse_from_files_filter_by_page_text2); ((B "bola3.txt"), test_source_parse_from_files_filter_by_page_text3); ((B "bola4.txt"), test_source_parse_from_files_filter_by_page_text4); ((B "bola5.txt"), test_source_parse_from_files_filter_by_page_text5); ((B "bola6.txt"), test_source_parse_from_files_filter_by_page_text6); ((B "bola7.txt"), test_source_parse_from_files_filter_by_page_text7)]) (fun t => t) strftime_c 60 (trie_insert (trie_insert trie_new (B "FILTER_PAGE") (B "1")) (B "FILTER_PER_PAGE") (B "2")) [(B "bola1.txt"); (B "bola2.txt"); (B "bola3.txt"); (B "bola4.txt"); (B "bola5.txt"); (B "bola6.txt"); (B "bola7.txt")])) = true /\
  Nat.leb (length (listing_of (source_parse_from_files (disk [((B "bola1.txt"), test_source_parse_from_files_filter_by_page_text1); ((B "bola2.txt"), test_source_parse_from_files_filter_by_page_text2); ((B "bola3.txt"), test_source_parse_from_files_filter_by_page_text3); ((B "bola4.txt"), test_source_parse_from_files_filter_by_page_text4); ((B "bola5.txt"), test_source_parse_from_files_filter_by_page_text5); ((B "bola6.txt"), test_source_parse_from_files_filter_by_page_text6); ((B "bola7.txt"), test_source_parse_from_files_filter_by_page_text7)]) (fun t => t) strftime_c 60 (trie_insert (trie_insert trie_new (B "FILTER_PAGE") (B "1")) (B "FILTER_PER_PAGE") (B "2")) [(B "bola1.txt"); (B "bola2.txt"); (B "bola3.txt"); (B "bola4.txt"); (B "bola5.txt"); (B "bola6.txt"); (B "bola7.txt")]))) 0 = false /\
  length (listing_of (source_parse_from_files (disk [((B "bola1.txt"), test_source_parse_from_files_filter_by_page_text1); ((B "bola2.txt"), test_source_parse_from_files_filter_by_page_text2); ((B "bola3.txt"), test_source_parse_from_files_filter_by_page_text3); ((B "bola4.txt"), test_source_parse_from_files_filter_by_page_text4); ((B "bola5.txt"), test_source_parse_from_files_filter_by_page_text5); ((B "bola6.txt"), test_source_parse_from_files_filter_by_page_text6); ((B "bola7.txt"), test_source_parse_from_files_filter_by_page_text7)]) (fun t => t) strftime_c 60 (trie_insert (trie_insert trie_new (B "FILTER_PAGE") (B "1")) (B "FILTER_PER_PAGE") (B "2")) [(B "bola1.txt"); (B "bola2.txt"); (B "bola3.txt"); (B "bola4.txt"); (B "bola5.txt"); (B "bola6.txt"); (B "bola7.txt")])) = 2 /\
  size_ (listing_conf (trie_insert (trie_insert trie_new (B "FILTER_PAGE") (B "1")) (B "FILTER_PER_PAGE") (B "2")) (source_parse_from_files (disk [((B "bola1.txt"), test_source_parse_from_files_filter_by_page_text1); ((B "bola2.txt"), test_source_parse_from_files_filter_by_page_text2); ((B "bola3.txt"), test_source_parse_from_files_filter_by_page_text3); ((B "bola4.txt"), test_source_parse_from_files_filter_by_page_text4); ((B "bola5.txt"), test_source_parse_from_files_filter_by_page_text5); ((B "bola6.txt"), test_source_parse_from_files_filter_by_page_text6); ((B "bola7.txt"), test_source_parse_from_files_filter_by_page_text7)]) (fun t => t) strftime_c 60 (trie_insert (trie_insert trie_new (B "FILTER_PAGE") (B "1")) (B "FILTER_PER_PAGE") (B "2")) [(B "bola1.txt"); (B "bola2.txt"); (B "bola3.txt"); (B "bola4.txt"); (B "bola5.txt"); (B "bola6.txt"); (B "bola7.txt")])) = 10 /\
  lookup_ (listing_conf (trie_insert (trie_insert trie_new (B "FILTER_PAGE") (B "1")) (B "FILTER_PER_PAGE") (B "2")) (source_parse_from_files (disk [((B "bola1.txt"), test_source_parse_from_files_filter_by_page_text1); ((B "bola2.txt"), test_source_parse_from_files_filter_by_page_text2); ((B "bola3.txt"), test_source_parse_from_files_filter_by_page_text3); ((B "bola4.txt"), test_source_parse_from_files_filter_by_page_text4); ((B "bola5.txt"), test_source_parse_from_files_filter_by_page_text5); ((B "bola6.txt"), test_source_parse_from_files_filter_by_page_text6); ((B "bola7.txt"), test_source_parse_from_files_filter_by_page_text7)]) (fun t => t) strftime_c 60 (trie_insert (trie_insert trie_new (B "FILTER_PAGE") (B "1")) (B "FILTER_PER_PAGE") (B "2")) [(B "bola1.txt"); (B "bola2.txt"); (B "bola3.txt"); (B "bola4.txt"); (B "bola5.txt"); (B "bola6.txt"); (B "bola7.txt")])) (B "FILENAME_FIRST") = Some (B "bola1") /\
  lookup_ (listing_conf (trie_insert (trie_insert trie_new (B "FILTER_PAGE") (B "1")) (B "FILTER_PER_PAGE") (B "2")) (source_parse_from_files (disk [((B "bola1.txt"), test_source_parse_from_files_filter_by_page_text1); ((B "bola2.txt"), test_source_parse_from_files_filter_by_page_text2); ((B "bola3.txt"), test_source_parse_from_files_filter_by_page_text3); ((B "bola4.txt"), test_source_parse_from_files_filter_by_page_text4); ((B "bola5.txt"), test_source_parse_from_files_filter_by_page_text5); ((B "bola6.txt"), test_source_parse_from_files_filter_by_page_text6); ((B "bola7.txt"), test_source_parse_from_files_filter_by_page_text7)]) (fun t => t) strftime_c 60 (trie_insert (trie_insert trie_new (B "FILTER_PAGE") (B "1")) (B "FILTER_PER_PAGE") (B "2")) [(B "bola1.txt"); (B "bola2.txt"); (B "bola3.txt"); (B "bola4.txt"); (B "bola5.txt"); (B "bola6.txt"); (B "bola7.txt")])) (B "FILENAME_LAST") = Some (B "bola2") /\
  lookup_ (listing_conf (trie_insert (trie_insert trie_new (B "FILTER_PAGE") (B "1")) (B "FILTER_PER_PAGE") (B "2")) (source_parse_from_files (disk [((B "bola1.txt"), test_source_parse_from_files_filter_by_page_text1); ((B "bola2.txt"), test_source_parse_from_files_filter_by_page_text2); ((B "bola3.txt"), test_source_parse_from_files_filter_by_page_text3); ((B "bola4.txt"), test_source_parse_from_files_filter_by_page_text4); ((B "bola5.txt"), test_source_parse_from_files_filter_by_page_text5); ((B "bola6.txt"), test_source_parse_from_files_filter_by_page_text6); ((B "bola7.txt"), test_source_parse_from_files_filter_by_page_text7)]) (fun t => t) strftime_c 60 (trie_insert (trie_insert trie_new (B "FILTER_PAGE") (B "1")) (B "FILTER_PER_PAGE") (B "2")) [(B "bola1.txt"); (B "bola2.txt"); (B "bola3.txt"); (B "bola4.txt"); (B "bola5.txt"); (B "bola6.txt"); (B "bola7.txt")])) (B "DATE_FIRST") = Some (B "2001-02-03 04:05:06") /\
  lookup_ (listing_conf (trie_insert (trie_insert trie_new (B "FILTER_PAGE") (B "1")) (B "FILTER_PER_PAGE") (B "2")) (source_parse_from_files (disk [((B "bola1.txt"), test_source_parse_from_files_filter_by_page_text1); ((B "bola2.txt"), test_source_parse_from_files_filter_by_page_text2); ((B "bola3.txt"), test_source_parse_from_files_filter_by_page_text3); ((B "bola4.txt"), test_source_parse_from_files_filter_by_page_text4); ((B "bola5.txt"), test_source_parse_from_files_filter_by_page_text5); ((B "bola6.txt"), test_source_parse_from_files_filter_by_page_text6); ((B "bola7.txt"), test_source_parse_from_files_filter_by_page_text7)]) (fun t => t) strftime_c 60 (trie_insert (trie_insert trie_new (B "FILTER_PAGE") (B "1")) (B "FILTER_PER_PAGE") (B "2")) [(B "bola1.txt"); (B "bola2.txt"); (B "bola3.txt"); (B "bola4.txt"); (B "bola5.txt"); (B "bola6.txt"); (B "bola7.txt")])) (B "DATE_LAST") = Some (B "2002-02-03 04:05:06") /\
  lookup_ (listing_conf (trie_insert (trie_insert trie_new (B "FILTER_PAGE") (B "1")) (B "FILTER_PER_PAGE") (B "2")) (source_parse_from_files (disk [((B "bola1.txt"), test_source_parse_from_files_filter_by_page_text1); ((B "bola2.txt"), test_source_parse_from_files_filter_by_page_text2); ((B "bola3.txt"), test_source_parse_from_files_filter_by_page_text3); ((B "bola4.txt"), test_source_parse_from_files_filter_by_page_text4); ((B "bola5.txt"), test_source_parse_from_files_filter_by_page_text5); ((B "bola6.txt"), test_source_parse_from_files_filter_by_page_text6); ((B "bola7.txt"), test_source_parse_from_files_filter_by_page_text7)]) (fun t => t) strftime_c 60 (trie_insert (trie_insert trie_new (B "FILTER_PAGE") (B "1")) (B "FILTER_PER_PAGE") (B "2")) [(B "bola1.txt"); (B "bola2.txt"); (B "bola3.txt"); (B "bola4.txt"); (B "bola5.txt"); (B "bola6.txt"); (B "bola7.txt")])) (B "FILTER_PAGE") = Some (B "1") /\
  lookup_ (listing_conf (trie_insert (trie_insert trie_new (B "FILTER_PAGE") (B "1")) (B "FILTER_PER_PAGE") (B "2")) (source_parse_from_files (disk [((B "bola1.txt"), test_source_parse_from_files_filter_by_page_text1); ((B "bola2.txt"), test_source_parse_from_files_filter_by_page_text2); ((B "bola3.txt"), test_source_parse_from_files_filter_by_page_text3); ((B "bola4.txt"), test_source_parse_from_files_filter_by_page_text4); ((B "bola5.txt"), test_source_parse_from_files_filter_by_page_text5); ((B "bola6.txt"), test_source_parse_from_files_filter_by_page_text6); ((B "bola7.txt"), test_source_parse_from_files_filter_by_page_text7)]) (fun t => t) strftime_c 60 (trie_insert (trie_insert trie_new (B "FILTER_PAGE") (B "1")) (B "FILTER_PER_PAGE") (B "2")) [(B "bola1.txt"); (B "bola2.txt"); (B "bola3.txt"); (B "bola4.txt"); (B "bola5.txt"); (B "bola6.txt"); (B "bola7.txt")])) (B "FILTER_PER_PAGE") = Some (B "2") /\
  lookup_ (listing_conf (trie_insert (trie_insert trie_new (B "FILTER_PAGE") (B "1")) (B "FILTER_PER_PAGE") (B "2")) (source_parse_from_files (disk [((B "bola1.txt"), test_source_parse_from_files_filter_by_page_text1); ((B "bola2.txt"), test_source_parse_from_files_filter_by_page_text2); ((B "bola3.txt"), test_source_parse_from_files_filter_by_page_text3); ((B "bola4.txt"), test_source_parse_from_files_filter_by_page_text4); ((B "bola5.txt"), test_source_parse_from_files_filter_by_page_text5); ((B "bola6.txt"), test_source_parse_from_files_filter_by_page_text6); ((B "bola7.txt"), test_source_parse_from_files_filter_by_page_text7)]) (fun t => t) strftime_c 60 (trie_insert (trie_insert trie_new (B "FILTER_PAGE") (B "1")) (B "FILTER_PER_PAGE") (B "2")) [(B "bola1.txt"); (B "bola2.txt"); (B "bola3.txt"); (B "bola4.txt"); (B "bola5.txt"); (B "bola6.txt"); (B "bola7.txt")])) (B "CURRENT_PAGE") = Some (B "1") /\
  lookup_ (listing_conf (trie_insert (trie_insert trie_new (B "FILTER_PAGE") (B "1")) (B "FILTER_PER_PAGE") (B "2")) (source_parse_from_files (disk [((B "bola1.txt"), test_source_parse_from_files_filter_by_page_text1); ((B "bola2.txt"), test_source_parse_from_files_filter_by_page_text2); ((B "bola3.txt"), test_source_parse_from_files_filter_by_page_text3); ((B "bola4.txt"), test_source_parse_from_files_filter_by_page_text4); ((B "bola5.txt"), test_source_parse_from_files_filter_by_page_text5); ((B "bola6.txt"), test_source_parse_from_files_filter_by_page_text6); ((B "bola7.txt"), test_source_parse_from_files_filter_by_page_text7)]) (fun t => t) strftime_c 60 (trie_insert (trie_insert trie_new (B "FILTER_PAGE") (B "1")) (B "FILTER_PER_PAGE") (B "2")) [(B "bola1.txt"); (B "bola2.txt"); (B "bola3.txt"); (B "bola4.txt"); (B "bola5.txt"); (B "bola6.txt"); (B "bola7.txt")])) (B "NEXT_PAGE") = Some (B "2") /\
  lookup_ (listing_conf (trie_insert (trie_insert trie_new (B "FILTER_PAGE") (B "1")) (B "FILTER_PER_PAGE") (B "2")) (source_parse_from_files (disk [((B "bola1.txt"), test_source_parse_from_files_filter_by_page_text1); ((B "bola2.txt"), test_source_parse_from_files_filter_by_page_text2); ((B "bola3.txt"), test_source_parse_from_files_filter_by_page_text3); ((B "bola4.txt"), test_source_parse_from_files_filter_by_page_text4); ((B "bola5.txt"), test_source_parse_from_files_filter_by_page_text5); ((B "bola6.txt"), test_source_parse_from_files_filter_by_page_text6); ((B "bola7.txt"), test_source_parse_from_files_filter_by_page_text7)]) (fun t => t) strftime_c 60 (trie_insert (trie_insert trie_new (B "FILTER_PAGE") (B "1")) (B "FILTER_PER_PAGE") (B "2")) [(B "bola1.txt"); (B "bola2.txt"); (B "bola3.txt"); (B "bola4.txt"); (B "bola5.txt"); (B "bola6.txt"); (B "bola7.txt")])) (B "FIRST_PAGE") = Some (B "1") /\
  lookup_ (listing_conf (trie_insert (trie_insert trie_new (B "FILTER_PAGE") (B "1")) (B "FILTER_PER_PAGE") (B "2")) (source_parse_from_files (disk [((B "bola1.txt"), test_source_parse_from_files_filter_by_page_text1); ((B "bola2.txt"), test_source_parse_from_files_filter_by_page_text2); ((B "bola3.txt"), test_source_parse_from_files_filter_by_page_text3); ((B "bola4.txt"), test_source_parse_from_files_filter_by_page_text4); ((B "bola5.txt"), test_source_parse_from_files_filter_by_page_text5); ((B "bola6.txt"), test_source_parse_from_files_filter_by_page_text6); ((B "bola7.txt"), test_source_parse_from_files_filter_by_page_text7)]) (fun t => t) strftime_c 60 (trie_insert (trie_insert trie_new (B "FILTER_PAGE") (B "1")) (B "FILTER_PER_PAGE") (B "2")) [(B "bola1.txt"); (B "bola2.txt"); (B "bola3.txt"); (B "bola4.txt"); (B "bola5.txt"); (B "bola6.txt"); (B "bola7.txt")])) (B "LAST_PAGE") = Some (B "4").
Proof. tests. Qed.

Definition test_source_parse_from_files_filter_by_page2_text1 : bytes := B "ASD: 123
DATE: 2001-02-03 04:05:06
--------
bola".
Definition test_source_parse_from_files_filter_by_page2_text2 : bytes := B "ASD: 456
DATE: 2002-02-03 04:05:06
--------
bola".
Definition test_source_parse_from_files_filter_by_page2_text3 : bytes := B "ASD: 789
DATE: 2003-02-03 04:05:06
--------
bola".
Definition test_source_parse_from_files_filter_by_page2_text4 : bytes := B "ASD: 7891
DATE: 2004-02-03 04:05:06
--------
bola".
Definition test_source_parse_from_files_filter_by_page2_text5 : bytes := B "ASD: 7892
DATE: 2005-02-03 04:05:06
--------
bola".
Definition test_source_parse_from_files_filter_by_page2_text6 : bytes := B "ASD: 7893
DATE: 2006-02-03 04:05:06
--------
bola".
Definition test_source_parse_from_files_filter_by_page2_text7 : bytes := B "ASD: 7894
DATE: 2007-02-03 04:05:06
--------
bola".
Example test_source_parse_from_files_filter_by_page2 :
  isnone (listing_err (source_parse_from_files (disk [((B "bola1.txt"), test_source_parse_from_files_filter_by_page2_text1); ((B "bola2.txt"), test_source_parse_from_files_filter_by_page2_text2); ((B "bola3.txt"), test_source_parse_from_files_filter_by_page2_text3); ((B "bola4.txt"), test_source_parse_from_files_filter_by_page2_text4); ((B "bola5.txt"), test_source_parse_from_files_filter_by_page2_text5); ((B "bola6.txt"), test_source_parse_from_files_filter_by_page2_text6); ((B "bola7.txt"), test_source_parse_from_files_filter_by_page2_text7)]) (fun t => t) strftime_c 60 (trie_insert (trie_insert trie_new (B "FILTER_PAGE") (B "3")) (B "FILTER_PER_PAGE") (B "2")) [(B "bola1.txt"); (B "bola2.txt"); (B "bola3.txt"); (B "bola4.txt"); (B "bola5.txt"); (B "bola6.txt"); (B "bola7.txt")])) = true /\
  Nat.leb (length (listing_of (source_parse_from_files (disk [((B "bola1.txt"), test_source_parse_from_files_filter_by_page2_text1); ((B "bola2.txt"), test_source_parse_from_files_filter_by_page2_text2); ((B "bola3.txt"), test_source_parse_from_files_filter_by_page2_text3); ((B "bola4.txt"), test_source_parse_from_files_filter_by_page2_text4); ((B "bola5.txt"), test_source_parse_from_files_filter_by_page2_text5); ((B "bola6.txt"), test_source_parse_from_files_filter_by_page2_text6); ((B "bola7.txt"), test_source_parse_from_files_filter_by_page2_text7)]) (fun t => t) strftime_c 60 (trie_insert (trie_insert trie_new (B "FILTER_PAGE") (B "3")) (B "FILTER_PER_PAGE") (B "2")) [(B "bola1.txt"); (B "bola2.txt"); (B "bola3.txt"); (B "bola4.txt"); (B "bola5.txt"); (B "bola6.txt"); (B "bola7.txt")]))) 0 = false /\
  length (listing_of (source_parse_from_files (disk [((B "bola1.txt"), test_source_parse_from_files_filter_by_page2_text1); ((B "bola2.txt"), test_source_parse_from_files_filter_by_page2_text2); ((B "bola3.txt"), test_source_parse_from_files_filter_by_page2_text3); ((B "bola4.txt"), test_source_parse_from_files_filter_by_page2_text4); ((B "bola5.txt"), test_source_parse_from_files_filter_by_page2_text5); ((B "bola6.txt"), test_source_parse_from_files_filter_by_page2_text6); ((B "bola7.txt"), test_source_parse_from_files_filter_by_page2_text7)]) (fun t => t) strftime_c 60 (trie_insert (trie_insert trie_new (B "FILTER_PAGE") (B "3")) (B "FILTER_PER_PAGE") (B "2")) [(B "bola1.txt"); (B "bola2.txt"); (B "bola3.txt"); (B "bola4.txt"); (B "bola5.txt"); (B "bola6.txt"); (B "bola7.txt")])) = 2 /\
  size_ (listing_conf (trie_insert (trie_insert trie_new (B "FILTER_PAGE") (B "3")) (B "FILTER_PER_PAGE") (B "2")) (source_parse_from_files (disk [((B "bola1.txt"), test_source_parse_from_files_filter_by_page2_text1); ((B "bola2.txt"), test_source_parse_from_files_filter_by_page2_text2); ((B "bola3.txt"), test_source_parse_from_files_filter_by_page2_text3); ((B "bola4.txt"), test_source_parse_from_files_filter_by_page2_text4); ((B "bola5.txt"), test_source_parse_from_files_filter_by_page2_text5); ((B "bola6.txt"), test_source_parse_from_files_filter_by_page2_text6); ((B "bola7.txt"), test_source_parse_from_files_filter_by_page2_text7)]) (fun t => t) strftime_c 60 (trie_insert (trie_insert trie_new (B "FILTER_PAGE") (B "3")) (B "FILTER_PER_PAGE") (B "2")) [(B "bola1.txt"); (B "bola2.txt"); (B "bola3.txt"); (B "bola4.txt"); (B "bola5.txt"); (B "bola6.txt"); (B "bola7.txt")])) = 11 /\
  lookup_ (listing_conf (trie_insert (trie_insert trie_new (B "FILTER_PAGE") (B "3")) (B "FILTER_PER_PAGE") (B "2")) (source_parse_from_files (disk [((B "bola1.txt"), test_source_parse_from_files_filter_by_page2_text1); ((B "bola2.txt"), test_source_parse_from_files_filter_by_page2_text2); ((B "bola3.txt"), test_source_parse_from_files_filter_by_page2_text3); ((B "bola4.txt"), test_source_parse_from_files_filter_by_page2_text4); ((B "bola5.txt"), test_source_parse_from_files_filter_by_page2_text5); ((B "bola6.txt"), test_source_parse_from_files_filter_by_page2_text6); ((B "bola7.txt"), test_source_parse_from_files_filter_by_page2_text7)]) (fun t => t) strftime_c 60 (trie_insert (trie_insert trie_new (B "FILTER_PAGE") (B "3")) (B "FILTER_PER_PAGE") (B "2")) [(B "bola1.txt"); (B "bola2.txt"); (B "bola3.txt"); (B "bola4.txt"); (B "bola5.txt"); (B "bola6.txt"); (B "bola7.txt")])) (B "FILENAME_FIRST") = Some (B "bola5") /\
  lookup_ (listing_conf (trie_insert (trie_insert trie_new (B "FILTER_PAGE") (B "3")) (B "FILTER_PER_PAGE") (B "2")) (source_parse_from_files (disk [((B "bola1.txt"), test_source_parse_from_files_filter_by_page2_text1); ((B "bola2.txt"), test_source_parse_from_files_filter_by_page2_text2); ((B "bola3.txt"), test_source_parse_from_files_filter_by_page2_text3); ((B "bola4.txt"), test_source_parse_from_files_filter_by_page2_text4); ((B "bola5.txt"), test_source_parse_from_files_filter_by_page2_text5); ((B "bola6.txt"), test_source_parse_from_files_filter_by_page2_text6); ((B "bola7.txt"), test_source_parse_from_files_filter_by_page2_text7)]) (fun t => t) strftime_c 60 (trie_insert (trie_insert trie_new (B "FILTER_PAGE") (B "3")) (B "FILTER_PER_PAGE") (B "2")) [(B "bola1.txt"); (B "bola2.txt"); (B "bola3.txt"); (B "bola4.txt"); (B "bola5.txt"); (B "bola6.txt"); (B "bola7.txt")])) (B "FILENAME_LAST") = Some (B "bola6") /\
  lookup_ (listing_conf (trie_insert (trie_insert trie_new (B "FILTER_PAGE") (B "3")) (B "FILTER_PER_PAGE") (B "2")) (source_parse_from_files (disk [((B "bola1.txt"), test_source_parse_from_files_filter_by_page2_text1); ((B "bola2.txt"), test_source_parse_from_files_filter_by_page2_text2); ((B "bola3.txt"), test_source_parse_from_files_filter_by_page2_text3); ((B "bola4.txt"), test_source_parse_from_files_filter_by_page2_text4); ((B "bola5.txt"), test_source_parse_from_files_filter_by_page2_text5); ((B "bola6.txt"), test_source_parse_from_files_filter_by_page2_text6); ((B "bola7.txt"), test_source_parse_from_files_filter_by_page2_text7)]) (fun t => t) strftime_c 60 (trie_insert (trie_insert trie_new (B "FILTER_PAGE") (B "3")) (B "FILTER_PER_PAGE") (B "2")) [(B "bola1.txt"); (B "bola2.txt"); (B "bola3.txt"); (B "bola4.txt"); (B "bola5.txt"); (B "bola6.txt"); (B "bola7.txt")])) (B "DATE_FIRST") = Some (B "2005-02-03 04:05:06") /\
  lookup_ (listing_conf (trie_insert (trie_insert trie_new (B "FILTER_PAGE") (B "3")) (B "FILTER_PER_PAGE") (B "2")) (source_parse_from_files (disk [((B "bola1.txt"), test_source_parse_from_files_filter_by_page2_text1); ((B "bola2.txt"), test_source_parse_from_files_filter_by_page2_text2); ((B "bola3.txt"), test_source_parse_from_files_filter_by_page2_text3); ((B "bola4.txt"), test_source_parse_from_files_filter_by_page2_text4); ((B "bola5.txt"), test_source_parse_from_files_filter_by_page2_text5); ((B "bola6.txt"), test_source_parse_from_files_filter_by_page2_text6); ((B "bola7.txt"), test_source_parse_from_files_filter_by_page2_text7)]) (fun t => t) strftime_c 60 (trie_insert (trie_insert trie_new (B "FILTER_PAGE") (B "3")) (B "FILTER_PER_PAGE") (B "2")) [(B "bola1.txt"); (B "bola2.txt"); (B "bola3.txt"); (B "bola4.txt"); (B "bola5.txt"); (B "bola6.txt"); (B "bola7.txt")])) (B "DATE_LAST") = Some (B "2006-02-03 04:05:06") /\
  lookup_ (listing_conf (trie_insert (trie_insert trie_new (B "FILTER_PAGE") (B "3")) (B "FILTER_PER_PAGE") (B "2")) (source_parse_from_files (disk [((B "bola1.txt"), test_source_parse_from_files_filter_by_page2_text1); ((B "bola2.txt"), test_source_parse_from_files_filter_by_page2_text2); ((B "bola3.txt"), test_source_parse_from_files_filter_by_page2_text3); ((B "bola4.txt"), test_source_parse_from_files_filter_by_page2_text4); ((B "bola5.txt"), test_source_parse_from_files_filter_by_page2_text5); ((B "bola6.txt"), test_source_parse_from_files_filter_by_page2_text6); ((B "bola7.txt"), test_source_parse_from_files_filter_by_page2_text7)]) (fun t => t) strftime_c 60 (trie_insert (trie_insert trie_new (B "FILTER_PAGE") (B "3")) (B "FILTER_PER_PAGE") (B "2")) [(B "bola1.txt"); (B "bola2.txt"); (B "bola3.txt"); (B "bola4.txt"); (B "bola5.txt"); (B "bola6.txt"); (B "bola7.txt")])) (B "FILTER_PAGE") = Some (B "3") /\
  lookup_ (listing_conf (trie_insert (trie_insert trie_new (B "FILTER_PAGE") (B "3")) (B "FILTER_PER_PAGE") (B "2")) (source_parse_from_files (disk [((B "bola1.txt"), test_source_parse_from_files_filter_by_page2_text1); ((B "bola2.txt"), test_source_parse_from_files_filter_by_page2_text2); ((B "bola3.txt"), test_source_parse_from_files_filter_by_page2_text3); ((B "bola4.txt"), test_source_parse_from_files_filter_by_page2_text4); ((B "bola5.txt"), test_source_parse_from_files_filter_by_page2_text5); ((B "bola6.txt"), test_source_parse_from_files_filter_by_page2_text6); ((B "bola7.txt"), test_source_parse_from_files_filter_by_page2_text7)]) (fun t => t) strftime_c 60 (trie_insert (trie_insert trie_new (B "FILTER_PAGE") (B "3")) (B "FILTER_PER_PAGE") (B "2")) [(B "bola1.txt"); (B "bola2.txt"); (B "bola3.txt"); (B "bola4.txt"); (B "bola5.txt"); (B "bola6.txt"); (B "bola7.txt")])) (B "FILTER_PER_PAGE") = Some (B "2") /\
  lookup_ (listing_conf (trie_insert (trie_insert trie_new (B "FILTER_PAGE") (B "3")) (B "FILTER_PER_PAGE") (B "2")) (source_parse_from_files (disk [((B "bola1.txt"), test_source_parse_from_files_filter_by_page2_text1); ((B "bola2.txt"), test_source_parse_from_files_filter_by_page2_text2); ((B "bola3.txt"), test_source_parse_from_files_filter_by_page2_text3); ((B "bola4.txt"), test_source_parse_from_files_filter_by_page2_text4); ((B "bola5.txt"), test_source_parse_from_files_filter_by_page2_text5); ((B "bola6.txt"), test_source_parse_from_files_filter_by_page2_text6); ((B "bola7.txt"), test_source_parse_from_files_filter_by_page2_text7)]) (fun t => t) strftime_c 60 (trie_insert (trie_insert trie_new (B "FILTER_PAGE") (B "3")) (B "FILTER_PER_PAGE") (B "2")) [(B "bola1.txt"); (B "bola2.txt"); (B "bola3.txt"); (B "bola4.txt"); (B "bola5.txt"); (B "bola6.txt"); (B "bola7.txt")])) (B "CURRENT_PAGE") = Some (B "3") /\
  lookup_ (listing_conf (trie_insert (trie_insert trie_new (B "FILTER_PAGE") (B "3")) (B "FILTER_PER_PAGE") (B "2")) (source_parse_from_files (disk [((B "bola1.txt"), test_source_parse_from_files_filter_by_page2_text1); ((B "bola2.txt"), test_source_parse_from_files_filter_by_page2_text2); ((B "bola3.txt"), test_source_parse_from_files_filter_by_page2_text3); ((B "bola4.txt"), test_source_parse_from_files_filter_by_page2_text4); ((B "bola5.txt"), test_source_parse_from_files_filter_by_page2_text5); ((B "bola6.txt"), test_source_parse_from_files_filter_by_page2_text6); ((B "bola7.txt"), test_source_parse_from_files_filter_by_page2_text7)]) (fun t => t) strftime_c 60 (trie_insert (trie_insert trie_new (B "FILTER_PAGE") (B "3")) (B "FILTER_PER_PAGE") (B "2")) [(B "bola1.txt"); (B "bola2.txt"); (B "bola3.txt"); (B "bola4.txt"); (B "bola5.txt"); (B "bola6.txt"); (B "bola7.txt")])) (B "PREVIOUS_PAGE") = Some (B "2") /\
  lookup_ (listing_conf (trie_insert (trie_insert trie_new (B "FILTER_PAGE") (B "3")) (B "FILTER_PER_PAGE") (B "2")) (source_parse_from_files (disk [((B "bola1.txt"), test_source_parse_from_files_filter_by_page2_text1); ((B "bola2.txt"), test_source_parse_from_files_filter_by_page2_text2); ((B "bola3.txt"), test_source_parse_from_files_filter_by_page2_text3); ((B "bola4.txt"), test_source_parse_from_files_filter_by_page2_text4); ((B "bola5.txt"), test_source_parse_from_files_filter_by_page2_text5); ((B "bola6.txt"), test_source_parse_from_files_filter_by_page2_text6); ((B "bola7.txt"), test_source_parse_from_files_filter_by_page2_text7)]) (fun t => t) strftime_c 60 (trie_insert (trie_insert trie_new (B "FILTER_PAGE") (B "3")) (B "FILTER_PER_PAGE") (B "2")) [(B "bola1.txt"); (B "bola2.txt"); (B "bola3.txt"); (B "bola4.txt"); (B "bola5.txt"); (B "bola6.txt"); (B "bola7.txt")])) (B "NEXT_PAGE") = Some (B "4") /\
  lookup_ (listing_conf (trie_insert (trie_insert trie_new (B "FILTER_PAGE") (B "3")) (B "FILTER_PER_PAGE") (B "2")) (source_parse_from_files (disk [((B "bola1.txt"), test_source_parse_from_files_filter_by_page2_text1); ((B "bola2.txt"), test_source_parse_from_files_filter_by_page2_text2); ((B "bola3.txt"), test_source_parse_from_files_filter_by_page2_text3); ((B "bola4.txt"), test_source_parse_from_files_filter_by_page2_text4); ((B "bola5.txt"), test_source_parse_from_files_filter_by_page2_text5); ((B "bola6.txt"), test_source_parse_from_files_filter_by_page2_text6); ((B "bola7.txt"), test_source_parse_from_files_filter_by_page2_text7)]) (fun t => t) strftime_c 60 (trie_insert (trie_insert trie_new (B "FILTER_PAGE") (B "3")) (B "FILTER_PER_PAGE") (B "2")) [(B "bola1.txt"); (B "bola2.txt"); (B "bola3.txt"); (B "bola4.txt"); (B "bola5.txt"); (B "bola6.txt"); (B "bola7.txt")])) (B "FIRST_PAGE") = Some (B "1") /\
  lookup_ (listing_conf (trie_insert (trie_insert trie_new (B "FILTER_PAGE") (B "3")) (B "FILTER_PER_PAGE") (B "2")) (source_parse_from_files (disk [((B "bola1.txt"), test_source_parse_from_files_filter_by_page2_text1); ((B "bola2.txt"), test_source_parse_from_files_filter_by_page2_text2); ((B "bola3.txt"), test_source_parse_from_files_filter_by_page2_text3); ((B "bola4.txt"), test_source_parse_from_files_filter_by_page2_text4); ((B "bola5.txt"), test_source_parse_from_files_filter_by_page2_text5); ((B "bola6.txt"), test_source_parse_from_files_filter_by_page2_text6); ((B "bola7.txt"), test_source_parse_from_files_filter_by_page2_text7)]) (fun t => t) strftime_c 60 (trie_insert (trie_insert trie_new (B "FILTER_PAGE") (B "3")) (B "FILTER_PER_PAGE") (B "2")) [(B "bola1.txt"); (B "bola2.txt"); (B "bola3.txt"); (B "bola4.txt"); (B "bola5.txt"); (B "bola6.txt"); (B "bola7.txt")])) (B "LAST_PAGE") = Some (B "4").
Proof. tests. Qed.

Definition test_source_parse_from_files_filter_by_page3_text1 : bytes := B "ASD: 123
DATE: 2001-02-03 04:05:06
--------
bola".
Definition test_source_parse_from_files_filter_by_page3_text2 : bytes := B "ASD: 456
DATE: 2002-02-03 04:05:06
--------
bola".
Definition test_source_parse_from_files_filter_by_page3_text3 : bytes := B "ASD: 789
DATE: 2003-02-03 04:05:06
--------
bola".
Definition test_source_parse_from_files_filter_by_page3_text4 : bytes := B "ASD: 7891
DATE: 2004-02-03 04:05:06
--------
bola".
Definition test_source_parse_from_files_filter_by_page3_text5 : bytes := B "ASD: 7892
DATE: 2005-02-03 04:05:06
--------
bola".
Definition test_source_parse_from_files_filter_by_page3_text6 : bytes := B "ASD: 7893
DATE: 2006-02-03 04:05:06
--------
bola".
Definition test_source_parse_from_files_filter_by_page3_text7 : bytes := B "ASD: 7894
DATE: 2007-02-03 04:05:06
--------
bola".
Example test_source_parse_from_files_filter_by_page3 :
  isnone (listing_err (source_parse_from_files (disk [((B "bola1.txt"), test_source_parse_from_files_filter_by_page3_text1); ((B "bola2.txt"), test_source_parse_from_files_filter_by_page3_text2); ((B "bola3.txt"), test_source_parse_from_files_filter_by_page3_text3); ((B "bola4.txt"), test_source_parse_from_files_filter_by_page3_text4); ((B "bola5.txt"), test_source_parse_from_files_filter_by_page3_text5); ((B "bola6.txt"), test_source_parse_from_files_filter_by_page3_text6); ((B "bola7.txt"), test_source_parse_from_files_filter_by_page3_text7)]) (fun t => t) strftime_c 60 (trie_insert (trie_insert trie_new (B "FILTER_PAGE") (B "1")) (B "FILTER_PER_PAGE") (B "2")) [(B "bola1.txt"); (B "bola2.txt"); (B "bola3.txt"); (B "bola4.txt"); (B "bola5.txt"); (B "bola6.txt"); (B "bola7.txt")])) = true /\
  Nat.leb (length (listing_of (source_parse_from_files (disk [((B "bola1.txt"), test_source_parse_from_files_filter_by_page3_text1); ((B "bola2.txt"), test_source_parse_from_files_filter_by_page3_text2); ((B "bola3.txt"), test_source_parse_from_files_filter_by_page3_text3); ((B "bola4.txt"), test_source_parse_from_files_filter_by_page3_text4); ((B "bola5.txt"), test_source_parse_from_files_filter_by_page3_text5); ((B "bola6.txt"), test_source_parse_from_files_filter_by_page3_text6); ((B "bola7.txt"), test_source_parse_from_files_filter_by_page3_text7)]) (fun t => t) strftime_c 60 (trie_insert (trie_insert trie_new (B "FILTER_PAGE") (B "1")) (B "FILTER_PER_PAGE") (B "2")) [(B "bola1.txt"); (B "bola2.txt"); (B "bola3.txt"); (B "bola4.txt"); (B "bola5.txt"); (B "bola6.txt"); (B "bola7.txt")]))) 0 = false /\
  length (listing_of (source_parse_from_files (disk [((B "bola1.txt"), test_source_parse_from_files_filter_by_page3_text1); ((B "bola2.txt"), test_source_parse_from_files_filter_by_page3_text2); ((B "bola3.txt"), test_source_parse_from_files_filter_by_page3_text3); ((B "bola4.txt"), test_source_parse_from_files_filter_by_page3_text4); ((B "bola5.txt"), test_source_parse_from_files_filter_by_page3_text5); ((B "bola6.txt"), test_source_parse_from_files_filter_by_page3_text6); ((B "bola7.txt"), test_source_parse_from_files_filter_by_page3_text7)]) (fun t => t) strftime_c 60 (trie_insert (trie_insert trie_new (B "FILTER_PAGE") (B "1")) (B "FILTER_PER_PAGE") (B "2")) [(B "bola1.txt"); (B "bola2.txt"); (B "bola3.txt"); (B "bola4.txt"); (B "bola5.txt"); (B "bola6.txt"); (B "bola7.txt")])) = 2 /\
  size_ (listing_conf (trie_insert (trie_insert trie_new (B "FILTER_PAGE") (B "1")) (B "FILTER_PER_PAGE") (B "2")) (source_parse_from_files (disk [((B "bola1.txt"), test_source_parse_from_files_filter_by_page3_text1); ((B "bola2.txt"), test_source_parse_from_files_filter_by_page3_text2); ((B "bola3.txt"), test_source_parse_from_files_filter_by_page3_text3); ((B "bola4.txt"), test_source_parse_from_files_filter_by_page3_text4); ((B "bola5.txt"), test_source_parse_from_files_filter_by_page3_text5); ((B "bola6.txt"), test_source_parse_from_files_filter_by_page3_text6); ((B "bola7.txt"), test_source_parse_from_files_filter_by_page3_text7)]) (fun t => t) strftime_c 60 (trie_insert (trie_insert trie_new (B "FILTER_PAGE") (B "1")) (B "FILTER_PER_PAGE") (B "2")) [(B "bola1.txt"); (B "bola2.txt"); (B "bola3.txt"); (B "bola4.txt"); (B "bola5.txt"); (B "bola6.txt"); (B "bola7.txt")])) = 10 /\
  lookup_ (listing_conf (trie_insert (trie_insert trie_new (B "FILTER_PAGE") (B "1")) (B "FILTER_PER_PAGE") (B "2")) (source_parse_from_files (disk [((B "bola1.txt"), test_source_parse_from_files_filter_by_page3_text1); ((B "bola2.txt"), test_source_parse_from_files_filter_by_page3_text2); ((B "bola3.txt"), test_source_parse_from_files_filter_by_page3_text3); ((B "bola4.txt"), test_source_parse_from_files_filter_by_page3_text4); ((B "bola5.txt"), test_source_parse_from_files_filter_by_page3_text5); ((B "bola6.txt"), test_source_parse_from_files_filter_by_page3_text6); ((B "bola7.txt"), test_source_parse_from_files_filter_by_page3_text7)]) (fun t => t) strftime_c 60 (trie_insert (trie_insert trie_new (B "FILTER_PAGE") (B "1")) (B "FILTER_PER_PAGE") (B "2")) [(B "bola1.txt"); (B "bola2.txt"); (B "bola3.txt"); (B "bola4.txt"); (B "bola5.txt"); (B "bola6.txt"); (B "bola7.txt")])) (B "FILENAME_FIRST") = Some (B "bola1") /\
  lookup_ (listing_conf (trie_insert (trie_insert trie_new (B "FILTER_PAGE") (B "1")) (B "FILTER_PER_PAGE") (B "2")) (source_parse_from_files (disk [((B "bola1.txt"), test_source_parse_from_files_filter_by_page3_text1); ((B "bola2.txt"), test_source_parse_from_files_filter_by_page3_text2); ((B "bola3.txt"), test_source_parse_from_files_filter_by_page3_text3); ((B "bola4.txt"), test_source_parse_from_files_filter_by_page3_text4); ((B "bola5.txt"), test_source_parse_from_files_filter_by_page3_text5); ((B "bola6.txt"), test_source_parse_from_files_filter_by_page3_text6); ((B "bola7.txt"), test_source_parse_from_files_filter_by_page3_text7)]) (fun t => t) strftime_c 60 (trie_insert (trie_insert trie_new (B "FILTER_PAGE") (B "1")) (B "FILTER_PER_PAGE") (B "2")) [(B "bola1.txt"); (B "bola2.txt"); (B "bola3.txt"); (B "bola4.txt"); (B "bola5.txt"); (B "bola6.txt"); (B "bola7.txt")])) (B "FILENAME_LAST") = Some (B "bola2") /\
  lookup_ (listing_conf (trie_insert (trie_insert trie_new (B "FILTER_PAGE") (B "1")) (B "FILTER_PER_PAGE") (B "2")) (source_parse_from_files (disk [((B "bola1.txt"), test_source_parse_from_files_filter_by_page3_text1); ((B "bola2.txt"), test_source_parse_from_files_filter_by_page3_text2); ((B "bola3.txt"), test_source_parse_from_files_filter_by_page3_text3); ((B "bola4.txt"), test_source_parse_from_files_filter_by_page3_text4); ((B "bola5.txt"), test_source_parse_from_files_filter_by_page3_text5); ((B "bola6.txt"), test_source_parse_from_files_filter_by_page3_text6); ((B "bola7.txt"), test_source_parse_from_files_filter_by_page3_text7)]) (fun t => t) strftime_c 60 (trie_insert (trie_insert trie_new (B "FILTER_PAGE") (B "1")) (B "FILTER_PER_PAGE") (B "2")) [(B "bola1.txt"); (B "bola2.txt"); (B "bola3.txt"); (B "bola4.txt"); (B "bola5.txt"); (B "bola6.txt"); (B "bola7.txt")])) (B "DATE_FIRST") = Some (B "2001-02-03 04:05:06") /\
  lookup_ (listing_conf (trie_insert (trie_insert trie_new (B "FILTER_PAGE") (B "1")) (B "FILTER_PER_PAGE") (B "2")) (source_parse_from_files (disk [((B "bola1.txt"), test_source_parse_from_files_filter_by_page3_text1); ((B "bola2.txt"), test_source_parse_from_files_filter_by_page3_text2); ((B "bola3.txt"), test_source_parse_from_files_filter_by_page3_text3); ((B "bola4.txt"), test_source_parse_from_files_filter_by_page3_text4); ((B "bola5.txt"), test_source_parse_from_files_filter_by_page3_text5); ((B "bola6.txt"), test_source_parse_from_files_filter_by_page3_text6); ((B "bola7.txt"), test_source_parse_from_files_filter_by_page3_text7)]) (fun t => t) strftime_c 60 (trie_insert (trie_insert trie_new (B "FILTER_PAGE") (B "1")) (B "FILTER_PER_PAGE") (B "2")) [(B "bola1.txt"); (B "bola2.txt"); (B "bola3.txt"); (B "bola4.txt"); (B "bola5.txt"); (B "bola6.txt"); (B "bola7.txt")])) (B "DATE_LAST") = Some (B "2002-02-03 04:05:06") /\
  lookup_ (listing_conf (trie_insert (trie_insert trie_new (B "FILTER_PAGE") (B "1")) (B "FILTER_PER_PAGE") (B "2")) (source_parse_from_files (disk [((B "bola1.txt"), test_source_parse_from_files_filter_by_page3_text1); ((B "bola2.txt"), test_source_parse_from_files_filter_by_page3_text2); ((B "bola3.txt"), test_source_parse_from_files_filter_by_page3_text3); ((B "bola4.txt"), test_source_parse_from_files_filter_by_page3_text4); ((B "bola5.txt"), test_source_parse_from_files_filter_by_page3_text5); ((B "bola6.txt"), test_source_parse_from_files_filter_by_page3_text6); ((B "bola7.txt"), test_source_parse_from_files_filter_by_page3_text7)]) (fun t => t) strftime_c 60 (trie_insert (trie_insert trie_new (B "FILTER_PAGE") (B "1")) (B "FILTER_PER_PAGE") (B "2")) [(B "bola1.txt"); (B "bola2.txt"); (B "bola3.txt"); (B "bola4.txt"); (B "bola5.txt"); (B "bola6.txt"); (B "bola7.txt")])) (B "FILTER_PAGE") = Some (B "1") /\
  lookup_ (listing_conf (trie_insert (trie_insert trie_new (B "FILTER_PAGE") (B "1")) (B "FILTER_PER_PAGE") (B "2")) (source_parse_from_files (disk [((B "bola1.txt"), test_source_parse_from_files_filter_by_page3_text1); ((B "bola2.txt"), test_source_parse_from_files_filter_by_page3_text2); ((B "bola3.txt"), test_source_parse_from_files_filter_by_page3_text3); ((B "bola4.txt"), test_source_parse_from_files_filter_by_page3_text4); ((B "bola5.txt"), test_source_parse_from_files_filter_by_page3_text5); ((B "bola6.txt"), test_source_parse_from_files_filter_by_page3_text6); ((B "bola7.txt"), test_source_parse_from_files_filter_by_page3_text7)]) (fun t => t) strftime_c 60 (trie_insert (trie_insert trie_new (B "FILTER_PAGE") (B "1")) (B "FILTER_PER_PAGE") (B "2")) [(B "bola1.txt"); (B "bola2.txt"); (B "bola3.txt"); (B "bola4.txt"); (B "bola5.txt"); (B "bola6.txt"); (B "bola7.txt")])) (B "FILTER_PER_PAGE") = Some (B "2") /\
  lookup_ (listing_conf (trie_insert (trie_insert trie_new (B "FILTER_PAGE") (B "1")) (B "FILTER_PER_PAGE") (B "2")) (source_parse_from_files (disk [((B "bola1.txt"), test_source_parse_from_files_filter_by_page3_text1); ((B "bola2.txt"), test_source_parse_from_files_filter_by_page3_text2); ((B "bola3.txt"), test_source_parse_from_files_filter_by_page3_text3); ((B "bola4.txt"), test_source_parse_from_files_filter_by_page3_text4); ((B "bola5.txt"), test_source_parse_from_files_filter_by_page3_text5); ((B "bola6.txt"), test_source_parse_from_files_filter_by_page3_text6); ((B "bola7.txt"), test_source_parse_from_files_filter_by_page3_text7)]) (fun t => t) strftime_c 60 (trie_insert (trie_insert trie_new (B "FILTER_PAGE") (B "1")) (B "FILTER_PER_PAGE") (B "2")) [(B "bola1.txt"); (B "bola2.txt"); (B "bola3.txt"); (B "bola4.txt"); (B "bola5.txt"); (B "bola6.txt"); (B "bola7.txt")])) (B "CURRENT_PAGE") = Some (B "1") /\
  lookup_ (listing_conf (trie_insert (trie_insert trie_new (B "FILTER_PAGE") (B "1")) (B "FILTER_PER_PAGE") (B "2")) (source_parse_from_files (disk [((B "bola1.txt"), test_source_parse_from_files_filter_by_page3_text1); ((B "bola2.txt"), test_source_parse_from_files_filter_by_page3_text2); ((B "bola3.txt"), test_source_parse_from_files_filter_by_page3_text3); ((B "bola4.txt"), test_source_parse_from_files_filter_by_page3_text4); ((B "bola5.txt"), test_source_parse_from_files_filter_by_page3_text5); ((B "bola6.txt"), test_source_parse_from_files_filter_by_page3_text6); ((B "bola7.txt"), test_source_parse_from_files_filter_by_page3_text7)]) (fun t => t) strftime_c 60 (trie_insert (trie_insert trie_new (B "FILTER_PAGE") (B "1")) (B "FILTER_PER_PAGE") (B "2")) [(B "bola1.txt"); (B "bola2.txt"); (B "bola3.txt"); (B "bola4.txt"); (B "bola5.txt"); (B "bola6.txt"); (B "bola7.txt")])) (B "NEXT_PAGE") = Some (B "2") /\
  lookup_ (listing_conf (trie_insert (trie_insert trie_new (B "FILTER_PAGE") (B "1")) (B "FILTER_PER_PAGE") (B "2")) (source_parse_from_files (disk [((B "bola1.txt"), test_source_parse_from_files_filter_by_page3_text1); ((B "bola2.txt"), test_source_parse_from_files_filter_by_page3_text2); ((B "bola3.txt"), test_source_parse_from_files_filter_by_page3_text3); ((B "bola4.txt"), test_source_parse_from_files_filter_by_page3_text4); ((B "bola5.txt"), test_source_parse_from_files_filter_by_page3_text5); ((B "bola6.txt"), test_source_parse_from_files_filter_by_page3_text6); ((B "bola7.txt"), test_source_parse_from_files_filter_by_page3_text7)]) (fun t => t) strftime_c 60 (trie_insert (trie_insert trie_new (B "FILTER_PAGE") (B "1")) (B "FILTER_PER_PAGE") (B "2")) [(B "bola1.txt"); (B "bola2.txt"); (B "bola3.txt"); (B "bola4.txt"); (B "bola5.txt"); (B "bola6.txt"); (B "bola7.txt")])) (B "FIRST_PAGE") = Some (B "1") /\
  lookup_ (listing_conf (trie_insert (trie_insert trie_new (B "FILTER_PAGE") (B "1")) (B "FILTER_PER_PAGE") (B "2")) (source_parse_from_files (disk [((B "bola1.txt"), test_source_parse_from_files_filter_by_page3_text1); ((B "bola2.txt"), test_source_parse_from_files_filter_by_page3_text2); ((B "bola3.txt"), test_source_parse_from_files_filter_by_page3_text3); ((B "bola4.txt"), test_source_parse_from_files_filter_by_page3_text4); ((B "bola5.txt"), test_source_parse_from_files_filter_by_page3_text5); ((B "bola6.txt"), test_source_parse_from_files_filter_by_page3_text6); ((B "bola7.txt"), test_source_parse_from_files_filter_by_page3_text7)]) (fun t => t) strftime_c 60 (trie_insert (trie_insert trie_new (B "FILTER_PAGE") (B "1")) (B "FILTER_PER_PAGE") (B "2")) [(B "bola1.txt"); (B "bola2.txt"); (B "bola3.txt"); (B "bola4.txt"); (B "bola5.txt"); (B "bola6.txt"); (B "bola7.txt")])) (B "LAST_PAGE") = Some (B "4").
Proof. tests. Qed.

Definition test_source_parse_from_files_filter_sort_and_by_page_and_tag_text1 : bytes := B "ASD: 123
DATE: 2001-02-03 04:05:06
--------
bola".
Definition test_source_parse_from_files_filter_sort_and_by_page_and_tag_text2 : bytes := B "ASD: 456
DATE: 2002-02-03 04:05:06
TAGS: chunda
--------
bola".
Definition test_source_parse_from_files_filter_sort_and_by_page_and_tag_text3 : bytes := B "ASD: 789
DATE: 2003-02-03 04:05:06
TAGS: chunda bola
--------
bola".
Definition test_source_parse_from_files_filter_sort_and_by_page_and_tag_text4 : bytes := B "ASD: 7891
DATE: 2004-02-03 04:05:06
TAGS: bola
--------
bola".
Definition test_source_parse_from_files_filter_sort_and_by_page_and_tag_text5 : bytes := B "ASD: 7892
DATE: 2005-02-03 04:05:06
TAGS: chunda
--------
bola".
Definition test_source_parse_from_files_filter_sort_and_by_page_and_tag_text6 : bytes := B "ASD: 7893
DATE: 2006-02-03 04:05:06
--------
bola".
Definition test_source_parse_from_files_filter_sort_and_by_page_and_tag_text7 : bytes := B "ASD: 7894
DATE: 2007-02-03 04:05:06
TAGS: yay chunda
--------
bola".
Example test_source_parse_from_files_filter_sort_and_by_page_and_tag :
  isnone (listing_err (source_parse_from_files (disk [((B "bola1.txt"), test_source_parse_from_files_filter_sort_and_by_page_and_tag_text1); ((B "bola2.txt"), test_source_parse_from_files_filter_sort_and_by_page_and_tag_text2); ((B "bola3.txt"), test_source_parse_from_files_filter_sort_and_by_page_and_tag_text3); ((B "bola4.txt"), test_source_parse_from_files_filter_sort_and_by_page_and_tag_text4); ((B "bola5.txt"), test_source_parse_from_files_filter_sort_and_by_page_and_tag_text5); ((B "bola6.txt"), test_source_parse_from_files_filter_sort_and_by_page_and_tag_text6); ((B "bola7.txt"), test_source_parse_from_files_filter_sort_and_by_page_and_tag_text7)]) (fun t => t) strftime_c 60 (trie_insert (trie_insert (trie_insert (trie_insert trie_new (B "FILTER_SORT") (B "1")) (B "FILTER_TAG") (B "chunda")) (B "FILTER_PAGE") (B "2")) (B "FILTER_PER_PAGE") (B "2")) [(B "bola1.txt"); (B "bola2.txt"); (B "bola3.txt"); (B "bola4.txt"); (B "bola5.txt"); (B "bola6.txt"); (B "bola7.txt")])) = true /\
  Nat.leb (length (listing_of (source_parse_from_files (disk [((B "bola1.txt"), test_source_parse_from_files_filter_sort_and_by_page_and_tag_text1); ((B "bola2.txt"), test_source_parse_from_files_filter_sort_and_by_page_and_tag_text2); ((B "bola3.txt"), test_source_parse_from_files_filter_sort_and_by_page_and_tag_text3); ((B "bola4.txt"), test_source_parse_from_files_filter_sort_and_by_page_and_tag_text4); ((B "bola5.txt"), test_source_parse_from_files_filter_sort_and_by_page_and_tag_text5); ((B "bola6.txt"), test_source_parse_from_files_filter_sort_and_by_page_and_tag_text6); ((B "bola7.txt"), test_source_parse_from_files_filter_sort_and_by_page_and_tag_text7)]) (fun t => t) strftime_c 60 (trie_insert (trie_insert (trie_insert (trie_insert trie_new (B "FILTER_SORT") (B "1")) (B "FILTER_TAG") (B "chunda")) (B "FILTER_PAGE") (B "2")) (B "FILTER_PER_PAGE") (B "2")) [(B "bola1.txt"); (B "bola2.txt"); (B "bola3.txt"); (B "bola4.txt"); (B "bola5.txt"); (B "bola6.txt"); (B "bola7.txt")]))) 0 = false /\
  length (listing_of (source_parse_from_files (disk [((B "bola1.txt"), test_source_parse_from_files_filter_sort_and_by_page_and_tag_text1); ((B "bola2.txt"), test_source_parse_from_files_filter_sort_and_by_page_and_tag_text2); ((B "bola3.txt"), test_source_parse_from_files_filter_sort_and_by_page_and_tag_text3); ((B "bola4.txt"), test_source_parse_from_files_filter_sort_and_by_page_and_tag_text4); ((B "bola5.txt"), test_source_parse_from_files_filter_sort_and_by_page_and_tag_text5); ((B "bola6.txt"), test_source_parse_from_files_filter_sort_and_by_page_and_tag_text6); ((B "bola7.txt"), test_source_parse_from_files_filter_sort_and_by_page_and_tag_text7)]) (fun t => t) strftime_c 60 (trie_insert (trie_insert (trie_insert (trie_insert trie_new (B "FILTER_SORT") (B "1")) (B "FILTER_TAG") (B "chunda")) (B "FILTER_PAGE") (B "2")) (B "FILTER_PER_PAGE") (B "2")) [(B "bola1.txt"); (B "bola2.txt"); (B "bola3.txt"); (B "bola4.txt"); (B "bola5.txt"); (B "bola6.txt"); (B "bola7.txt")])) = 2 /\
  size_ (listing_conf (trie_insert (trie_insert (trie_insert (trie_insert trie_new (B "FILTER_SORT") (B "1")) (B "FILTER_TAG") (B "chunda")) (B "FILTER_PAGE") (B "2")) (B "FILTER_PER_PAGE") (B "2")) (source_parse_from_files (disk [((B "bola1.txt"), test_source_parse_from_files_filter_sort_and_by_page_and_tag_text1); ((B "bola2.txt"), test_source_parse_from_files_filter_sort_and_by_page_and_tag_text2); ((B "bola3.txt"), test_source_parse_from_files_filter_sort_and_by_page_and_tag_text3); ((B "bola4.txt"), test_source_parse_from_files_filter_sort_and_by_page_and_tag_text4); ((B "bola5.txt"), test_source_parse_from_files_filter_sort_and_by_page_and_tag_text5); ((B "bola6.txt"), test_source_parse_from_files_filter_sort_and_by_page_and_tag_text6); ((B "bola7.txt"), test_source_parse_from_files_filter_sort_and_by_page_and_tag_text7)]) (fun t => t) strftime_c 60 (trie_insert (trie_insert (trie_insert (trie_insert trie_new (B "FILTER_SORT") (B "1")) (B "FILTER_TAG") (B "chunda")) (B "FILTER_PAGE") (B "2")) (B "FILTER_PER_PAGE") (B "2")) [(B "bola1.txt"); (B "bola2.txt"); (B "bola3.txt"); (B "bola4.txt"); (B "bola5.txt"); (B "bola6.txt"); (B "bola7.txt")])) = 12 /\
  lookup_ (listing_conf (trie_insert (trie_insert (trie_insert (trie_insert trie_new (B "FILTER_SORT") (B "1")) (B "FILTER_TAG") (B "chunda")) (B "FILTER_PAGE") (B "2")) (B "FILTER_PER_PAGE") (B "2")) (source_parse_from_files (disk [((B "bola1.txt"), test_source_parse_from_files_filter_sort_and_by_page_and_tag_text1); ((B "bola2.txt"), test_source_parse_from_files_filter_sort_and_by_page_and_tag_text2); ((B "bola3.txt"), test_source_parse_from_files_filter_sort_and_by_page_and_tag_text3); ((B "bola4.txt"), test_source_parse_from_files_filter_sort_and_by_page_and_tag_text4); ((B "bola5.txt"), test_source_parse_from_files_filter_sort_and_by_page_and_tag_text5); ((B "bola6.txt"), test_source_parse_from_files_filter_sort_and_by_page_and_tag_text6); ((B "bola7.txt"), test_source_parse_from_files_filter_sort_and_by_page_and_tag_text7)]) (fun t => t) strftime_c 60 (trie_insert (trie_insert (trie_insert (trie_insert trie_new (B "FILTER_SORT") (B "1")) (B "FILTER_TAG") (B "chunda")) (B "FILTER_PAGE") (B "2")) (B "FILTER_PER_PAGE") (B "2")) [(B "bola1.txt"); (B "bola2.txt"); (B "bola3.txt"); (B "bola4.txt"); (B "bola5.txt"); (B "bola6.txt"); (B "bola7.txt")])) (B "FILENAME_FIRST") = Some (B "bola3") /\
  lookup_ (listing_conf (trie_insert (trie_insert (trie_insert (trie_insert trie_new (B "FILTER_SORT") (B "1")) (B "FILTER_TAG") (B "chunda")) (B "FILTER_PAGE") (B "2")) (B "FILTER_PER_PAGE") (B "2")) (source_parse_from_files (disk [((B "bola1.txt"), test_source_parse_from_files_filter_sort_and_by_page_and_tag_text1); ((B "bola2.txt"), test_source_parse_from_files_filter_sort_and_by_page_and_tag_text2); ((B "bola3.txt"), test_source_parse_from_files_filter_sort_and_by_page_and_tag_text3); ((B "bola4.txt"), test_source_parse_from_files_filter_sort_and_by_page_and_tag_text4); ((B "bola5.txt"), test_source_parse_from_files_filter_sort_and_by_page_and_tag_text5); ((B "bola6.txt"), test_source_parse_from_files_filter_sort_and_by_page_and_tag_text6); ((B "bola7.txt"), test_source_parse_from_files_filter_sort_and_by_page_and_tag_text7)]) (fun t => t) strftime_c 60 (trie_insert (trie_insert (trie_insert (trie_insert trie_new (B "FILTER_SORT") (B "1")) (B "FILTER_TAG") (B "chunda")) (B "FILTER_PAGE") (B "2")) (B "FILTER_PER_PAGE") (B "2")) [(B "bola1.txt"); (B "bola2.txt"); (B "bola3.txt"); (B "bola4.txt"); (B "bola5.txt"); (B "bola6.txt"); (B "bola7.txt")])) (B "FILENAME_LAST") = Some (B "bola2") /\
  lookup_ (listing_conf (trie_insert (trie_insert (trie_insert (trie_insert trie_new (B "FILTER_SORT") (B "1")) (B "FILTER_TAG") (B "chunda")) (B "FILTER_PAGE") (B "2")) (B "FILTER_PER_PAGE") (B "2")) (source_parse_from_files (disk [((B "bola1.txt"), test_source_parse_from_files_filter_sort_and_by_page_and_tag_text1); ((B "bola2.txt"), test_source_parse_from_files_filter_sort_and_by_page_and_tag_text2); ((B "bola3.txt"), test_source_parse_from_files_filter_sort_and_by_page_and_tag_text3); ((B "bola4.txt"), test_source_parse_from_files_filter_sort_and_by_page_and_tag_text4); ((B "bola5.txt"), test_source_parse_from_files_filter_sort_and_by_page_and_tag_text5); ((B "bola6.txt"), test_source_parse_from_files_filter_sort_and_by_page_and_tag_text6); ((B "bola7.txt"), test_source_parse_from_files_filter_sort_and_by_page_and_tag_text7)]) (fun t => t) strftime_c 60 (trie_insert (trie_insert (trie_insert (trie_insert trie_new (B "FILTER_SORT") (B "1")) (B "FILTER_TAG") (B "chunda")) (B "FILTER_PAGE") (B "2")) (B "FILTER_PER_PAGE") (B "2")) [(B "bola1.txt"); (B "bola2.txt"); (B "bola3.txt"); (B "bola4.txt"); (B "bola5.txt"); (B "bola6.txt"); (B "bola7.txt")])) (B "DATE_FIRST") = Some (B "2003-02-03 04:05:06") /\
  lookup_ (listing_conf (trie_insert (trie_insert (trie_insert (trie_insert trie_new (B "FILTER_SORT") (B "1")) (B "FILTER_TAG") (B "chunda")) (B "FILTER_PAGE") (B "2")) (B "FILTER_PER_PAGE") (B "2")) (source_parse_from_files (disk [((B "bola1.txt"), test_source_parse_from_files_filter_sort_and_by_page_and_tag_text1); ((B "bola2.txt"), test_source_parse_from_files_filter_sort_and_by_page_and_tag_text2); ((B "bola3.txt"), test_source_parse_from_files_filter_sort_and_by_page_and_tag_text3); ((B "bola4.txt"), test_source_parse_from_files_filter_sort_and_by_page_and_tag_text4); ((B "bola5.txt"), test_source_parse_from_files_filter_sort_and_by_page_and_tag_text5); ((B "bola6.txt"), test_source_parse_from_files_filter_sort_and_by_page_and_tag_text6); ((B "bola7.txt"), test_source_parse_from_files_filter_sort_and_by_page_and_tag_text7)]) (fun t => t) strftime_c 60 (trie_insert (trie_insert (trie_insert (trie_insert trie_new (B "FILTER_SORT") (B "1")) (B "FILTER_TAG") (B "chunda")) (B "FILTER_PAGE") (B "2")) (B "FILTER_PER_PAGE") (B "2")) [(B "bola1.txt"); (B "bola2.txt"); (B "bola3.txt"); (B "bola4.txt"); (B "bola5.txt"); (B "bola6.txt"); (B "bola7.txt")])) (B "DATE_LAST") = Some (B "2002-02-03 04:05:06") /\
  lookup_ (listing_conf (trie_insert (trie_insert (trie_insert (trie_insert trie_new (B "FILTER_SORT") (B "1")) (B "FILTER_TAG") (B "chunda")) (B "FILTER_PAGE") (B "2")) (B "FILTER_PER_PAGE") (B "2")) (source_parse_from_files (disk [((B "bola1.txt"), test_source_parse_from_files_filter_sort_and_by_page_and_tag_text1); ((B "bola2.txt"), test_source_parse_from_files_filter_sort_and_by_page_and_tag_text2); ((B "bola3.txt"), test_source_parse_from_files_filter_sort_and_by_page_and_tag_text3); ((B "bola4.txt"), test_source_parse_from_files_filter_sort_and_by_page_and_tag_text4); ((B "bola5.txt"), test_source_parse_from_files_filter_sort_and_by_page_and_tag_text5); ((B "bola6.txt"), test_source_parse_from_files_filter_sort_and_by_page_and_tag_text6); ((B "bola7.txt"), test_source_parse_from_files_filter_sort_and_by_page_and_tag_text7)]) (fun t => t) strftime_c 60 (trie_insert (trie_insert (trie_insert (trie_insert trie_new (B "FILTER_SORT") (B "1")) (B "FILTER_TAG") (B "chunda")) (B "FILTER_PAGE") (B "2")) (B "FILTER_PER_PAGE") (B "2")) [(B "bola1.txt"); (B "bola2.txt"); (B "bola3.txt"); (B "bola4.txt"); (B "bola5.txt"); (B "bola6.txt"); (B "bola7.txt")])) (B "FILTER_SORT") = Some (B "1") /\
  lookup_ (listing_conf (trie_insert (trie_insert (trie_insert (trie_insert trie_new (B "FILTER_SORT") (B "1")) (B "FILTER_TAG") (B "chunda")) (B "FILTER_PAGE") (B "2")) (B "FILTER_PER_PAGE") (B "2")) (source_parse_from_files (disk [((B "bola1.txt"), test_source_parse_from_files_filter_sort_and_by_page_and_tag_text1); ((B "bola2.txt"), test_source_parse_from_files_filter_sort_and_by_page_and_tag_text2); ((B "bola3.txt"), test_source_parse_from_files_filter_sort_and_by_page_and_tag_text3); ((B "bola4.txt"), test_source_parse_from_files_filter_sort_and_by_page_and_tag_text4); ((B "bola5.txt"), test_source_parse_from_files_filter_sort_and_by_page_and_tag_text5); ((B "bola6.txt"), test_source_parse_from_files_filter_sort_and_by_page_and_tag_text6); ((B "bola7.txt"), test_source_parse_from_files_filter_sort_and_by_page_and_tag_text7)]) (fun t => t) strftime_c 60 (trie_insert (trie_insert (trie_insert (trie_insert trie_new (B "FILTER_SORT") (B "1")) (B "FILTER_TAG") (B "chunda")) (B "FILTER_PAGE") (B "2")) (B "FILTER_PER_PAGE") (B "2")) [(B "bola1.txt"); (B "bola2.txt"); (B "bola3.txt"); (B "bola4.txt"); (B "bola5.txt"); (B "bola6.txt"); (B "bola7.txt")])) (B "FILTER_TAG") = Some (B "chunda") /\
  lookup_ (listing_conf (trie_insert (trie_insert (trie_insert (trie_insert trie_new (B "FILTER_SORT") (B "1")) (B "FILTER_TAG") (B "chunda")) (B "FILTER_PAGE") (B "2")) (B "FILTER_PER_PAGE") (B "2")) (source_parse_from_files (disk [((B "bola1.txt"), test_source_parse_from_files_filter_sort_and_by_page_and_tag_text1); ((B "bola2.txt"), test_source_parse_from_files_filter_sort_and_by_page_and_tag_text2); ((B "bola3.txt"), test_source_parse_from_files_filter_sort_and_by_page_and_tag_text3); ((B "bola4.txt"), test_source_parse_from_files_filter_sort_and_by_page_and_tag_text4); ((B "bola5.txt"), test_source_parse_from_files_filter_sort_and_by_page_and_tag_text5); ((B "bola6.txt"), test_source_parse_from_files_filter_sort_and_by_page_and_tag_text6); ((B "bola7.txt"), test_source_parse_from_files_filter_sort_and_by_page_and_tag_text7)]) (fun t => t) strftime_c 60 (trie_insert (trie_insert (trie_insert (trie_insert trie_new (B "FILTER_SORT") (B "1")) (B "FILTER_TAG") (B "chunda")) (B "FILTER_PAGE") (B "2")) (B "FILTER_PER_PAGE") (B "2")) [(B "bola1.txt"); (B "bola2.txt"); (B "bola3.txt"); (B "bola4.txt"); (B "bola5.txt"); (B "bola6.txt"); (B "bola7.txt")])) (B "FILTER_PAGE") = Some (B "2") /\
  lookup_ (listing_conf (trie_insert (trie_insert (trie_insert (trie_insert trie_new (B "FILTER_SORT") (B "1")) (B "FILTER_TAG") (B "chunda")) (B "FILTER_PAGE") (B "2")) (B "FILTER_PER_PAGE") (B "2")) (source_parse_from_files (disk [((B "bola1.txt"), test_source_parse_from_files_filter_sort_and_by_page_and_tag_text1); ((B "bola2.txt"), test_source_parse_from_files_filter_sort_and_by_page_and_tag_text2); ((B "bola3.txt"), test_source_parse_from_files_filter_sort_and_by_page_and_tag_text3); ((B "bola4.txt"), test_source_parse_from_files_filter_sort_and_by_page_and_tag_text4); ((B "bola5.txt"), test_source_parse_from_files_filter_sort_and_by_page_and_tag_text5); ((B "bola6.txt"), test_source_parse_from_files_filter_sort_and_by_page_and_tag_text6); ((B "bola7.txt"), test_source_parse_from_files_filter_sort_and_by_page_and_tag_text7)]) (fun t => t) strftime_c 60 (trie_insert (trie_insert (trie_insert (trie_insert trie_new (B "FILTER_SORT") (B "1")) (B "FILTER_TAG") (B "chunda")) (B "FILTER_PAGE") (B "2")) (B "FILTER_PER_PAGE") (B "2")) [(B "bola1.txt"); (B "bola2.txt"); (B "bola3.txt"); (B "bola4.txt"); (B "bola5.txt"); (B "bola6.txt"); (B "bola7.txt")])) (B "FILTER_PER_PAGE") = Some (B "2") /\
  lookup_ (listing_conf (trie_insert (trie_insert (trie_insert (trie_insert trie_new (B "FILTER_SORT") (B "1")) (B "FILTER_TAG") (B "chunda")) (B "FILTER_PAGE") (B "2")) (B "FILTER_PER_PAGE") (B "2")) (source_parse_from_files (disk [((B "bola1.txt"), test_source_parse_from_files_filter_sort_and_by_page_and_tag_text1); ((B "bola2.txt"), test_source_parse_from_files_filter_sort_and_by_page_and_tag_text2); ((B "bola3.txt"), test_source_parse_from_files_filter_sort_and_by_page_and_tag_text3); ((B "bola4.txt"), test_source_parse_from_files_filter_sort_and_by_page_and_tag_text4); ((B "bola5.txt"), test_source_parse_from_files_filter_sort_and_by_page_and_tag_text5); ((B "bola6.txt"), test_source_parse_from_files_filter_sort_and_by_page_and_tag_text6); ((B "bola7.txt"), test_source_parse_from_files_filter_sort_and_by_page_and_tag_text7)]) (fun t => t) strftime_c 60 (trie_insert (trie_insert (trie_insert (trie_insert trie_new (B "FILTER_SORT") (B "1")) (B "FILTER_TAG") (B "chunda")) (B "FILTER_PAGE") (B "2")) (B "FILTER_PER_PAGE") (B "2")) [(B "bola1.txt"); (B "bola2.txt"); (B "bola3.txt"); (B "bola4.txt"); (B "bola5.txt"); (B "bola6.txt"); (B "bola7.txt")])) (B "CURRENT_PAGE") = Some (B "2") /\
  lookup_ (listing_conf (trie_insert (trie_insert (trie_insert (trie_insert trie_new (B "FILTER_SORT") (B "1")) (B "FILTER_TAG") (B "chunda")) (B "FILTER_PAGE") (B "2")) (B "FILTER_PER_PAGE") (B "2")) (source_parse_from_files (disk [((B "bola1.txt"), test_source_parse_from_files_filter_sort_and_by_page_and_tag_text1); ((B "bola2.txt"), test_source_parse_from_files_filter_sort_and_by_page_and_tag_text2); ((B "bola3.txt"), test_source_parse_from_files_filter_sort_and_by_page_and_tag_text3); ((B "bola4.txt"), test_source_parse_from_files_filter_sort_and_by_page_and_tag_text4); ((B "bola5.txt"), test_source_parse_from_files_filter_sort_and_by_page_and_tag_text5); ((B "bola6.txt"), test_source_parse_from_files_filter_sort_and_by_page_and_tag_text6); ((B "bola7.txt"), test_source_parse_from_files_filter_sort_and_by_page_and_tag_text7)]) (fun t => t) strftime_c 60 (trie_insert (trie_insert (trie_insert (trie_insert trie_new (B "FILTER_SORT") (B "1")) (B "FILTER_TAG") (B "chunda")) (B "FILTER_PAGE") (B "2")) (B "FILTER_PER_PAGE") (B "2")) [(B "bola1.txt"); (B "bola2.txt"); (B "bola3.txt"); (B "bola4.txt"); (B "bola5.txt"); (B "bola6.txt"); (B "bola7.txt")])) (B "PREVIOUS_PAGE") = Some (B "1") /\
  lookup_ (listing_conf (trie_insert (trie_insert (trie_insert (trie_insert trie_new (B "FILTER_SORT") (B "1")) (B "FILTER_TAG") (B "chunda")) (B "FILTER_PAGE") (B "2")) (B "FILTER_PER_PAGE") (B "2")) (source_parse_from_files (disk [((B "bola1.txt"), test_source_parse_from_files_filter_sort_and_by_page_and_tag_text1); ((B "bola2.txt"), test_source_parse_from_files_filter_sort_and_by_page_and_tag_text2); ((B "bola3.txt"), test_source_parse_from_files_filter_sort_and_by_page_and_tag_text3); ((B "bola4.txt"), test_source_parse_from_files_filter_sort_and_by_page_and_tag_text4); ((B "bola5.txt"), test_source_parse_from_files_filter_sort_and_by_page_and_tag_text5); ((B "bola6.txt"), test_source_parse_from_files_filter_sort_and_by_page_and_tag_text6); ((B "bola7.txt"), test_source_parse_from_files_filter_sort_and_by_page_and_tag_text7)]) (fun t => t) strftime_c 60 (trie_insert (trie_insert (trie_insert (trie_insert trie_new (B "FILTER_SORT") (B "1")) (B "FILTER_TAG") (B "chunda")) (B "FILTER_PAGE") (B "2")) (B "FILTER_PER_PAGE") (B "2")) [(B "bola1.txt"); (B "bola2.txt"); (B "bola3.txt"); (B "bola4.txt"); (B "bola5.txt"); (B "bola6.txt"); (B "bola7.txt")])) (B "FIRST_PAGE") = Some (B "1") /\
  lookup_ (listing_conf (trie_insert (trie_insert (trie_insert (trie_insert trie_new (B "FILTER_SORT") (B "1")) (B "FILTER_TAG") (B "chunda")) (B "FILTER_PAGE") (B "2")) (B "FILTER_PER_PAGE") (B "2")) (source_parse_from_files (disk [((B "bola1.txt"), test_source_parse_from_files_filter_sort_and_by_page_and_tag_text1); ((B "bola2.txt"), test_source_parse_from_files_filter_sort_and_by_page_and_tag_text2); ((B "bola3.txt"), test_source_parse_from_files_filter_sort_and_by_page_and_tag_text3); ((B "bola4.txt"), test_source_parse_from_files_filter_sort_and_by_page_and_tag_text4); ((B "bola5.txt"), test_source_parse_from_files_filter_sort_and_by_page_and_tag_text5); ((B "bola6.txt"), test_source_parse_from_files_filter_sort_and_by_page_and_tag_text6); ((B "bola7.txt"), test_source_parse_from_files_filter_sort_and_by_page_and_tag_text7)]) (fun t => t) strftime_c 60 (trie_insert (trie_insert (trie_insert (trie_insert trie_new (B "FILTER_SORT") (B "1")) (B "FILTER_TAG") (B "chunda")) (B "FILTER_PAGE") (B "2")) (B "FILTER_PER_PAGE") (B "2")) [(B "bola1.txt"); (B "bola2.txt"); (B "bola3.txt"); (B "bola4.txt"); (B "bola5.txt"); (B "bola6.txt"); (B "bola7.txt")])) (B "LAST_PAGE") = Some (B "2").
Proof. tests. Qed.

Definition test_source_parse_from_files_filter_by_page_invalid_text1 : bytes := B "ASD: 123
DATE: 2001-02-03 04:05:06
--------
bola".
Definition test_source_parse_from_files_filter_by_page_invalid_text2 : bytes := B "ASD: 456
DATE: 2002-02-03 04:05:06
--------
bola".
Definition test_source_parse_from_files_filter_by_page_invalid_text3 : bytes := B "ASD: 789
DATE: 2003-02-03 04:05:06
--------
bola".
Definition test_source_parse_from_files_filter_by_page_invalid_text4 : bytes := B "ASD: 7891
DATE: 2004-02-03 04:05:06
--------
bola".
Definition test_source_parse_from_files_filter_by_page_invalid_text5 : bytes := B "ASD: 7892
DATE: 2005-02-03 04:05:06
--------
bola".
Definition test_source_parse_from_files_filter_by_page_invalid_text6 : bytes := B "ASD: 7893
DATE: 2006-02-03 04:05:06
--------
bola".
Definition test_source_parse_from_files_filter_by_page_invalid_text7 : bytes := B "ASD: 7894
DATE: 2007-02-03 04:05:06
--------
bola".
Example test_source_parse_from_files_filter_by_page_invalid :
  isnone (listing_err (source_parse_from_files (disk [((B "bola1.txt"), test_source_parse_from_files_filter_by_page_invalid_text1); ((B "bola2.txt"), test_source_parse_from_files_filter_by_page_invalid_text2); ((B "bola3.txt"), test_source_parse_from_files_filter_by_page_invalid_text3); ((B "bola4.txt"), test_source_parse_from_files_filter_by_page_invalid_text4); ((B "bola5.txt"), test_source_parse_from_files_filter_by_page_invalid_text5); ((B "bola6.txt"), test_source_parse_from_files_filter_by_page_invalid_text6); ((B "bola7.txt"), test_source_parse_from_files_filter_by_page_invalid_text7)]) (fun t => t) strftime_c 60 (trie_insert (trie_insert trie_new (B "FILTER_PAGE") (B "-1")) (B "FILTER_PER_PAGE") (B "2")) [(B "bola1.txt"); (B "bola2.txt"); (B "bola3.txt"); (B "bola4.txt"); (B "bola5.txt"); (B "bola6.txt"); (B "bola7.txt")])) = true /\
  Nat.leb (length (listing_of (source_parse_from_files (disk [((B "bola1.txt"), test_source_parse_from_files_filter_by_page_invalid_text1); ((B "bola2.txt"), test_source_parse_from_files_filter_by_page_invalid_text2); ((B "bola3.txt"), test_source_parse_from_files_filter_by_page_invalid_text3); ((B "bola4.txt"), test_source_parse_from_files_filter_by_page_invalid_text4); ((B "bola5.txt"), test_source_parse_from_files_filter_by_page_invalid_text5); ((B "bola6.txt"), test_source_parse_from_files_filter_by_page_invalid_text6); ((B "bola7.txt"), test_source_parse_from_files_filter_by_page_invalid_text7)]) (fun t => t) strftime_c 60 (trie_insert (trie_insert trie_new (B "FILTER_PAGE") (B "-1")) (B "FILTER_PER_PAGE") (B "2")) [(B "bola1.txt"); (B "bola2.txt"); (B "bola3.txt"); (B "bola4.txt"); (B "bola5.txt"); (B "bola6.txt"); (B "bola7.txt")]))) 0 = false /\
  length (listing_of (source_parse_from_files (disk [((B "bola1.txt"), test_source_parse_from_files_filter_by_page_invalid_text1); ((B "bola2.txt"), test_source_parse_from_files_filter_by_page_invalid_text2); ((B "bola3.txt"), test_source_parse_from_files_filter_by_page_invalid_text3); ((B "bola4.txt"), test_source_parse_from_files_filter_by_page_invalid_text4); ((B "bola5.txt"), test_source_parse_from_files_filter_by_page_invalid_text5); ((B "bola6.txt"), test_source_parse_from_files_filter_by_page_invalid_text6); ((B "bola7.txt"), test_source_parse_from_files_filter_by_page_invalid_text7)]) (fun t => t) strftime_c 60 (trie_insert (trie_insert trie_new (B "FILTER_PAGE") (B "-1")) (B "FILTER_PER_PAGE") (B "2")) [(B "bola1.txt"); (B "bola2.txt"); (B "bola3.txt"); (B "bola4.txt"); (B "bola5.txt"); (B "bola6.txt"); (B "bola7.txt")])) = 2 /\
  size_ (listing_conf (trie_insert (trie_insert trie_new (B "FILTER_PAGE") (B "-1")) (B "FILTER_PER_PAGE") (B "2")) (source_parse_from_files (disk [((B "bola1.txt"), test_source_parse_from_files_filter_by_page_invalid_text1); ((B "bola2.txt"), test_source_parse_from_files_filter_by_page_invalid_text2); ((B "bola3.txt"), test_source_parse_from_files_filter_by_page_invalid_text3); ((B "bola4.txt"), test_source_parse_from_files_filter_by_page_invalid_text4); ((B "bola5.txt"), test_source_parse_from_files_filter_by_page_invalid_text5); ((B "bola6.txt"), test_source_parse_from_files_filter_by_page_invalid_text6); ((B "bola7.txt"), test_source_parse_from_files_filter_by_page_invalid_text7)]) (fun t => t) strftime_c 60 (trie_insert (trie_insert trie_new (B "FILTER_PAGE") (B "-1")) (B "FILTER_PER_PAGE") (B "2")) [(B "bola1.txt"); (B "bola2.txt"); (B "bola3.txt"); (B "bola4.txt"); (B "bola5.txt"); (B "bola6.txt"); (B "bola7.txt")])) = 10 /\
  lookup_ (listing_conf (trie_insert (trie_insert trie_new (B "FILTER_PAGE") (B "-1")) (B "FILTER_PER_PAGE") (B "2")) (source_parse_from_files (disk [((B "bola1.txt"), test_source_parse_from_files_filter_by_page_invalid_text1); ((B "bola2.txt"), test_source_parse_from_files_filter_by_page_invalid_text2); ((B "bola3.txt"), test_source_parse_from_files_filter_by_page_invalid_text3); ((B "bola4.txt"), test_source_parse_from_files_filter_by_page_invalid_text4); ((B "bola5.txt"), test_source_parse_from_files_filter_by_page_invalid_text5); ((B "bola6.txt"), test_source_parse_from_files_filter_by_page_invalid_text6); ((B "bola7.txt"), test_source_parse_from_files_filter_by_page_invalid_text7)]) (fun t => t) strftime_c 60 (trie_insert (trie_insert trie_new (B "FILTER_PAGE") (B "-1")) (B "FILTER_PER_PAGE") (B "2")) [(B "bola1.txt"); (B "bola2.txt"); (B "bola3.txt"); (B "bola4.txt"); (B "bola5.txt"); (B "bola6.txt"); (B "bola7.txt")])) (B "FILENAME_FIRST") = Some (B "bola1") /\
  lookup_ (listing_conf (trie_insert (trie_insert trie_new (B "FILTER_PAGE") (B "-1")) (B "FILTER_PER_PAGE") (B "2")) (source_parse_from_files (disk [((B "bola1.txt"), test_source_parse_from_files_filter_by_page_invalid_text1); ((B "bola2.txt"), test_source_parse_from_files_filter_by_page_invalid_text2); ((B "bola3.txt"), test_source_parse_from_files_filter_by_page_invalid_text3); ((B "bola4.txt"), test_source_parse_from_files_filter_by_page_invalid_text4); ((B "bola5.txt"), test_source_parse_from_files_filter_by_page_invalid_text5); ((B "bola6.txt"), test_source_parse_from_files_filter_by_page_invalid_text6); ((B "bola7.txt"), test_source_parse_from_files_filter_by_page_invalid_text7)]) (fun t => t) strftime_c 60 (trie_insert (trie_insert trie_new (B "FILTER_PAGE") (B "-1")) (B "FILTER_PER_PAGE") (B "2")) [(B "bola1.txt"); (B "bola2.txt"); (B "bola3.txt"); (B "bola4.txt"); (B "bola5.txt"); (B "bola6.txt"); (B "bola7.txt")])) (B "FILENAME_LAST") = Some (B "bola2") /\
  lookup_ (listing_conf (trie_insert (trie_insert trie_new (B "FILTER_PAGE") (B "-1")) (B "FILTER_PER_PAGE") (B "2")) (source_parse_from_files (disk [((B "bola1.txt"), test_source_parse_from_files_filter_by_page_invalid_text1); ((B "bola2.txt"), test_source_parse_from_files_filter_by_page_invalid_text2); ((B "bola3.txt"), test_source_parse_from_files_filter_by_page_invalid_text3); ((B "bola4.txt"), test_source_parse_from_files_filter_by_page_invalid_text4); ((B "bola5.txt"), test_source_parse_from_files_filter_by_page_invalid_text5); ((B "bola6.txt"), test_source_parse_from_files_filter_by_page_invalid_text6); ((B "bola7.txt"), test_source_parse_from_files_filter_by_page_invalid_text7)]) (fun t => t) strftime_c 60 (trie_insert (trie_insert trie_new (B "FILTER_PAGE") (B "-1")) (B "FILTER_PER_PAGE") (B "2")) [(B "bola1.txt"); (B "bola2.txt"); (B "bola3.txt"); (B "bola4.txt"); (B "bola5.txt"); (B "bola6.txt"); (B "bola7.txt")])) (B "DATE_FIRST") = Some (B "2001-02-03 04:05:06") /\
  lookup_ (listing_conf (trie_insert (trie_insert trie_new (B "FILTER_PAGE") (B "-1")) (B "FILTER_PER_PAGE") (B "2")) (source_parse_from_files (disk [((B "bola1.txt"), test_source_parse_from_files_filter_by_page_invalid_text1); ((B "bola2.txt"), test_source_parse_from_files_filter_by_page_invalid_text2); ((B "bola3.txt"), test_source_parse_from_files_filter_by_page_invalid_text3); ((B "bola4.txt"), test_source_parse_from_files_filter_by_page_invalid_text4); ((B "bola5.txt"), test_source_parse_from_files_filter_by_page_invalid_text5); ((B "bola6.txt"), test_source_parse_from_files_filter_by_page_invalid_text6); ((B "bola7.txt"), test_source_parse_from_files_filter_by_page_invalid_text7)]) (fun t => t) strftime_c 60 (trie_insert (trie_insert trie_new (B "FILTER_PAGE") (B "-1")) (B "FILTER_PER_PAGE") (B "2")) [(B "bola1.txt"); (B "bola2.txt"); (B "bola3.txt"); (B "bola4.txt"); (B "bola5.txt"); (B "bola6.txt"); (B "bola7.txt")])) (B "DATE_LAST") = Some (B "2002-02-03 04:05:06") /\
  lookup_ (listing_conf (trie_insert (trie_insert trie_new (B "FILTER_PAGE") (B "-1")) (B "FILTER_PER_PAGE") (B "2")) (source_parse_from_files (disk [((B "bola1.txt"), test_source_parse_from_files_filter_by_page_invalid_text1); ((B "bola2.txt"), test_source_parse_from_files_filter_by_page_invalid_text2); ((B "bola3.txt"), test_source_parse_from_files_filter_by_page_invalid_text3); ((B "bola4.txt"), test_source_parse_from_files_filter_by_page_invalid_text4); ((B "bola5.txt"), test_source_parse_from_files_filter_by_page_invalid_text5); ((B "bola6.txt"), test_source_parse_from_files_filter_by_page_invalid_text6); ((B "bola7.txt"), test_source_parse_from_files_filter_by_page_invalid_text7)]) (fun t => t) strftime_c 60 (trie_insert (trie_insert trie_new (B "FILTER_PAGE") (B "-1")) (B "FILTER_PER_PAGE") (B "2")) [(B "bola1.txt"); (B "bola2.txt"); (B "bola3.txt"); (B "bola4.txt"); (B "bola5.txt"); (B "bola6.txt"); (B "bola7.txt")])) (B "FILTER_PAGE") = Some (B "-1") /\
  lookup_ (listing_conf (trie_insert (trie_insert trie_new (B "FILTER_PAGE") (B "-1")) (B "FILTER_PER_PAGE") (B "2")) (source_parse_from_files (disk [((B "bola1.txt"), test_source_parse_from_files_filter_by_page_invalid_text1); ((B "bola2.txt"), test_source_parse_from_files_filter_by_page_invalid_text2); ((B "bola3.txt"), test_source_parse_from_files_filter_by_page_invalid_text3); ((B "bola4.txt"), test_source_parse_from_files_filter_by_page_invalid_text4); ((B "bola5.txt"), test_source_parse_from_files_filter_by_page_invalid_text5); ((B "bola6.txt"), test_source_parse_from_files_filter_by_page_invalid_text6); ((B "bola7.txt"), test_source_parse_from_files_filter_by_page_invalid_text7)]) (fun t => t) strftime_c 60 (trie_insert (trie_insert trie_new (B "FILTER_PAGE") (B "-1")) (B "FILTER_PER_PAGE") (B "2")) [(B "bola1.txt"); (B "bola2.txt"); (B "bola3.txt"); (B "bola4.txt"); (B "bola5.txt"); (B "bola6.txt"); (B "bola7.txt")])) (B "FILTER_PER_PAGE") = Some (B "2") /\
  lookup_ (listing_conf (trie_insert (trie_insert trie_new (B "FILTER_PAGE") (B "-1")) (B "FILTER_PER_PAGE") (B "2")) (source_parse_from_files (disk [((B "bola1.txt"), test_source_parse_from_files_filter_by_page_invalid_text1); ((B "bola2.txt"), test_source_parse_from_files_filter_by_page_invalid_text2); ((B "bola3.txt"), test_source_parse_from_files_filter_by_page_invalid_text3); ((B "bola4.txt"), test_source_parse_from_files_filter_by_page_invalid_text4); ((B "bola5.txt"), test_source_parse_from_files_filter_by_page_invalid_text5); ((B "bola6.txt"), test_source_parse_from_files_filter_by_page_invalid_text6); ((B "bola7.txt"), test_source_parse_from_files_filter_by_page_invalid_text7)]) (fun t => t) strftime_c 60 (trie_insert (trie_insert trie_new (B "FILTER_PAGE") (B "-1")) (B "FILTER_PER_PAGE") (B "2")) [(B "bola1.txt"); (B "bola2.txt"); (B "bola3.txt"); (B "bola4.txt"); (B "bola5.txt"); (B "bola6.txt"); (B "bola7.txt")])) (B "CURRENT_PAGE") = Some (B "1") /\
  lookup_ (listing_conf (trie_insert (trie_insert trie_new (B "FILTER_PAGE") (B "-1")) (B "FILTER_PER_PAGE") (B "2")) (source_parse_from_files (disk [((B "bola1.txt"), test_source_parse_from_files_filter_by_page_invalid_text1); ((B "bola2.txt"), test_source_parse_from_files_filter_by_page_invalid_text2); ((B "bola3.txt"), test_source_parse_from_files_filter_by_page_invalid_text3); ((B "bola4.txt"), test_source_parse_from_files_filter_by_page_invalid_text4); ((B "bola5.txt"), test_source_parse_from_files_filter_by_page_invalid_text5); ((B "bola6.txt"), test_source_parse_from_files_filter_by_page_invalid_text6); ((B "bola7.txt"), test_source_parse_from_files_filter_by_page_invalid_text7)]) (fun t => t) strftime_c 60 (trie_insert (trie_insert trie_new (B "FILTER_PAGE") (B "-1")) (B "FILTER_PER_PAGE") (B "2")) [(B "bola1.txt"); (B "bola2.txt"); (B "bola3.txt"); (B "bola4.txt"); (B "bola5.txt"); (B "bola6.txt"); (B "bola7.txt")])) (B "NEXT_PAGE") = Some (B "2") /\
  lookup_ (listing_conf (trie_insert (trie_insert trie_new (B "FILTER_PAGE") (B "-1")) (B "FILTER_PER_PAGE") (B "2")) (source_parse_from_files (disk [((B "bola1.txt"), test_source_parse_from_files_filter_by_page_invalid_text1); ((B "bola2.txt"), test_source_parse_from_files_filter_by_page_invalid_text2); ((B "bola3.txt"), test_source_parse_from_files_filter_by_page_invalid_text3); ((B "bola4.txt"), test_source_parse_from_files_filter_by_page_invalid_text4); ((B "bola5.txt"), test_source_parse_from_files_filter_by_page_invalid_text5); ((B "bola6.txt"), test_source_parse_from_files_filter_by_page_invalid_text6); ((B "bola7.txt"), test_source_parse_from_files_filter_by_page_invalid_text7)]) (fun t => t) strftime_c 60 (trie_insert (trie_insert trie_new (B "FILTER_PAGE") (B "-1")) (B "FILTER_PER_PAGE") (B "2")) [(B "bola1.txt"); (B "bola2.txt"); (B "bola3.txt"); (B "bola4.txt"); (B "bola5.txt"); (B "bola6.txt"); (B "bola7.txt")])) (B "FIRST_PAGE") = Some (B "1") /\
  lookup_ (listing_conf (trie_insert (trie_insert trie_new (B "FILTER_PAGE") (B "-1")) (B "FILTER_PER_PAGE") (B "2")) (source_parse_from_files (disk [((B "bola1.txt"), test_source_parse_from_files_filter_by_page_invalid_text1); ((B "bola2.txt"), test_source_parse_from_files_filter_by_page_invalid_text2); ((B "bola3.txt"), test_source_parse_from_files_filter_by_page_invalid_text3); ((B "bola4.txt"), test_source_parse_from_files_filter_by_page_invalid_text4); ((B "bola5.txt"), test_source_parse_from_files_filter_by_page_invalid_text5); ((B "bola6.txt"), test_source_parse_from_files_filter_by_page_invalid_text6); ((B "bola7.txt"), test_source_parse_from_files_filter_by_page_invalid_text7)]) (fun t => t) strftime_c 60 (trie_insert (trie_insert trie_new (B "FILTER_PAGE") (B "-1")) (B "FILTER_PER_PAGE") (B "2")) [(B "bola1.txt"); (B "bola2.txt"); (B "bola3.txt"); (B "bola4.txt"); (B "bola5.txt"); (B "bola6.txt"); (B "bola7.txt")])) (B "LAST_PAGE") = Some (B "4").
Proof. tests. Qed.

Definition test_source_parse_from_files_filter_by_page_invalid2_text1 : bytes := B "ASD: 123
DATE: 2001-02-03 04:05:06
--------
bola".
Definition test_source_parse_from_files_filter_by_page_invalid2_text2 : bytes := B "ASD: 456
DATE: 2002-02-03 04:05:06
--------
bola".
Definition test_source_parse_from_files_filter_by_page_invalid2_text3 : bytes := B "ASD: 789
DATE: 2003-02-03 04:05:06
--------
bola".
Definition test_source_parse_from_files_filter_by_page_invalid2_text4 : bytes := B "ASD: 7891
DATE: 2004-02-03 04:05:06
--------
bola".
Definition test_source_parse_from_files_filter_by_page_invalid2_text5 : bytes := B "ASD: 7892
DATE: 2005-02-03 04:05:06
--------
bola".
Definition test_source_parse_from_files_filter_by_page_invalid2_text6 : bytes := B "ASD: 7893
DATE: 2006-02-03 04:05:06
--------
bola".
Definition test_source_parse_from_files_filter_by_page_invalid2_text7 : bytes := B "ASD: 7894
DATE: 2007-02-03 04:05:06
--------
bola".
Example test_source_parse_from_files_filter_by_page_invalid2 :
  isnone (listing_err (source_parse_from_files (disk [((B "bola1.txt"), test_source_parse_from_files_filter_by_page_invalid2_text1); ((B "bola2.txt"), test_source_parse_from_files_filter_by_page_invalid2_text2); ((B "bola3.txt"), test_source_parse_from_files_filter_by_page_invalid2_text3); ((B "bola4.txt"), test_source_parse_from_files_filter_by_page_invalid2_text4); ((B "bola5.txt"), test_source_parse_from_files_filter_by_page_invalid2_text5); ((B "bola6.txt"), test_source_parse_from_files_filter_by_page_invalid2_text6); ((B "bola7.txt"), test_source_parse_from_files_filter_by_page_invalid2_text7)]) (fun t => t) strftime_c 60 (trie_insert (trie_insert trie_new (B "FILTER_PAGE") (B "5")) (B "FILTER_PER_PAGE") (B "2")) [(B "bola1.txt"); (B "bola2.txt"); (B "bola3.txt"); (B "bola4.txt"); (B "bola5.txt"); (B "bola6.txt"); (B "bola7.txt")])) = true /\
  Nat.leb (length (listing_of (source_parse_from_files (disk [((B "bola1.txt"), test_source_parse_from_files_filter_by_page_invalid2_text1); ((B "bola2.txt"), test_source_parse_from_files_filter_by_page_invalid2_text2); ((B "bola3.txt"), test_source_parse_from_files_filter_by_page_invalid2_text3); ((B "bola4.txt"), test_source_parse_from_files_filter_by_page_invalid2_text4); ((B "bola5.txt"), test_source_parse_from_files_filter_by_page_invalid2_text5); ((B "bola6.txt"), test_source_parse_from_files_filter_by_page_invalid2_text6); ((B "bola7.txt"), test_source_parse_from_files_filter_by_page_invalid2_text7)]) (fun t => t) strftime_c 60 (trie_insert (trie_insert trie_new (B "FILTER_PAGE") (B "5")) (B "FILTER_PER_PAGE") (B "2")) [(B "bola1.txt"); (B "bola2.txt"); (B "bola3.txt"); (B "bola4.txt"); (B "bola5.txt"); (B "bola6.txt"); (B "bola7.txt")]))) 0 = true.
Proof. tests. Qed.

Definition test_source_parse_from_files_without_all_dates_text1 : bytes := B "ASD: 456
DATE: 2002-02-03 04:05:06
--------
bola".
Definition test_source_parse_from_files_without_all_dates_text2 : bytes := B "ASD: 789
DATE: 2003-02-03 04:05:06
--------
bola".
Example test_source_parse_from_files_without_all_dates :
  Nat.leb (length (listing_of (source_parse_from_files (disk [((B "bola1.txt"), (B "ASD: 123
--------
bola")); ((B "bola2.txt"), test_source_parse_from_files_without_all_dates_text1); ((B "bola3.txt"), test_source_parse_from_files_without_all_dates_text2)]) (fun t => t) strftime_c 60 trie_new [(B "bola1.txt"); (B "bola2.txt"); (B "bola3.txt")]))) 0 = true /\
  isnone (listing_err (source_parse_from_files (disk [((B "bola1.txt"), (B "ASD: 123
--------
bola")); ((B "bola2.txt"), test_source_parse_from_files_without_all_dates_text1); ((B "bola3.txt"), test_source_parse_from_files_without_all_dates_text2)]) (fun t => t) strftime_c 60 trie_new [(B "bola1.txt"); (B "bola2.txt"); (B "bola3.txt")])) = false /\
  listing_err (source_parse_from_files (disk [((B "bola1.txt"), (B "ASD: 123
--------
bola")); ((B "bola2.txt"), test_source_parse_from_files_without_all_dates_text1); ((B "bola3.txt"), test_source_parse_from_files_without_all_dates_text2)]) (fun t => t) strftime_c 60 trie_new [(B "bola1.txt"); (B "bola2.txt"); (B "bola3.txt")]) = Some (B "'DATE' variable provided for at least one source file, but not for all source files. It must be provided for all files.") /\
  size_ (listing_conf trie_new (source_parse_from_files (disk [((B "bola1.txt"), (B "ASD: 123
--------
bola")); ((B "bola2.txt"), test_source_parse_from_files_without_all_dates_text1); ((B "bola3.txt"), test_source_parse_from_files_without_all_dates_text2)]) (fun t => t) strftime_c 60 trie_new [(B "bola1.txt"); (B "bola2.txt"); (B "bola3.txt")])) = 0.
Proof. tests. Qed.

Definition test_source_parse_from_files_filter_sort_without_all_dates_text1 : bytes := B "ASD: 123
DATE: 2002-02-03 04:05:06
--------
bola".
Example test_source_parse_from_files_filter_sort_without_all_dates :
  Nat.leb (length (listing_of (source_parse_from_files (disk [((B "bola1.txt"), test_source_parse_from_files_filter_sort_without_all_dates_text1); ((B "bola2.txt"), (B "ASD: 456
--------
bola"))]) (fun t => t) strftime_c 60 (trie_insert trie_new (B "FILTER_SORT") (B "1")) [(B "bola1.txt"); (B "bola2.txt"); (B "bola3.txt")]))) 0 = true /\
  isnone (listing_err (source_parse_from_files (disk [((B "bola1.txt"), test_source_parse_from_files_filter_sort_without_all_dates_text1); ((B "bola2.txt"), (B "ASD: 456
--------
bola"))]) (fun t => t) strftime_c 60 (trie_insert trie_new (B "FILTER_SORT") (B "1")) [(B "bola1.txt"); (B "bola2.txt"); (B "bola3.txt")])) = false /\
  listing_err (source_parse_from_files (disk [((B "bola1.txt"), test_source_parse_from_files_filter_sort_without_all_dates_text1); ((B "bola2.txt"), (B "ASD: 456
--------
bola"))]) (fun t => t) strftime_c 60 (trie_insert trie_new (B "FILTER_SORT") (B "1")) [(B "bola1.txt"); (B "bola2.txt"); (B "bola3.txt")]) = Some (B "'FILTER_SORT' requires that 'DATE' variable is set for every source file: bola2.txt") /\
  size_ (listing_conf (trie_insert trie_new (B "FILTER_SORT") (B "1")) (source_parse_from_files (disk [((B "bola1.txt"), test_source_parse_from_files_filter_sort_without_all_dates_text1); ((B "bola2.txt"), (B "ASD: 456
--------
bola"))]) (fun t => t) strftime_c 60 (trie_insert trie_new (B "FILTER_SORT") (B "1")) [(B "bola1.txt"); (B "bola2.txt"); (B "bola3.txt")])) = 1 /\
  lookup_ (listing_conf (trie_insert trie_new (B "FILTER_SORT") (B "1")) (source_parse_from_files (disk [((B "bola1.txt"), test_source_parse_from_files_filter_sort_without_all_dates_text1); ((B "bola2.txt"), (B "ASD: 456
--------
bola"))]) (fun t => t) strftime_c 60 (trie_insert trie_new (B "FILTER_SORT") (B "1")) [(B "bola1.txt"); (B "bola2.txt"); (B "bola3.txt")])) (B "FILTER_SORT") = Some (B "1").
Proof. tests. Qed.

Definition test_source_parse_from_files_filter_sort_with_wrong_date_text1 : bytes := B "ASD: 123
DATE: 2002-02-03 04:05:ab
--------
bola".
Example test_source_parse_from_files_filter_sort_with_wrong_date :
  Nat.leb (length (listing_of (source_parse_from_files (disk [((B "bola1.txt"), test_source_parse_from_files_filter_sort_with_wrong_date_text1)]) (fun t => t) strftime_c 60 (trie_insert trie_new (B "FILTER_SORT") (B "1")) [(B "bola1.txt"); (B "bola2.txt"); (B "bola3.txt")]))) 0 = true /\
  isnone (listing_err (source_parse_from_files (disk [((B "bola1.txt"), test_source_parse_from_files_filter_sort_with_wrong_date_text1)]) (fun t => t) strftime_c 60 (trie_insert trie_new (B "FILTER_SORT") (B "1")) [(B "bola1.txt"); (B "bola2.txt"); (B "bola3.txt")])) = false /\
  listing_err (source_parse_from_files (disk [((B "bola1.txt"), test_source_parse_from_files_filter_sort_with_wrong_date_text1)]) (fun t => t) strftime_c 60 (trie_insert trie_new (B "FILTER_SORT") (B "1")) [(B "bola1.txt"); (B "bola2.txt"); (B "bola3.txt")]) = Some (B "An error occurred while parsing 'DATE' variable: bola1.txt

Invalid first digit of seconds. Found 'a', must be integer >= 0 and <= 6.") /\
  size_ (listing_conf (trie_insert trie_new (B "FILTER_SORT") (B "1")) (source_parse_from_files (disk [((B "bola1.txt"), test_source_parse_from_files_filter_sort_with_wrong_date_text1)]) (fun t => t) strftime_c 60 (trie_insert trie_new (B "FILTER_SORT") (B "1")) [(B "bola1.txt"); (B "bola2.txt"); (B "bola3.txt")])) = 1 /\
  lookup_ (listing_conf (trie_insert trie_new (B "FILTER_SORT") (B "1")) (source_parse_from_files (disk [((B "bola1.txt"), test_source_parse_from_files_filter_sort_with_wrong_date_text1)]) (fun t => t) strftime_c 60 (trie_insert trie_new (B "FILTER_SORT") (B "1")) [(B "bola1.txt"); (B "bola2.txt"); (B "bola3.txt")])) (B "FILTER_SORT") = Some (B "1").
Proof. tests. Qed.

Example test_source_parse_from_files_null :
  isnone (listing_err (source_parse_from_files (disk []) (fun t => t) strftime_c 60 trie_new [])) = true /\
  Nat.leb (length (listing_of (source_parse_from_files (disk []) (fun t => t) strftime_c 60 trie_new []))) 0 = true /\
  length (listing_of (source_parse_from_files (disk []) (fun t => t) strftime_c 60 trie_new [])) = 0 /\
  size_ (listing_conf trie_new (source_parse_from_files (disk []) (fun t => t) strftime_c 60 trie_new [])) = 0.
Proof. tests. Qed.

(* ---------- tests/blogc/check_rusage.c ---------- *)

Example test_rusage_format_cpu_time :
  Some (format_cpu_time 0%Z) = Some (B "0us") /\
  Some (format_cpu_time 123%Z) = Some (B "123us") /\
  Some (format_cpu_time 1234%Z) = Some (B "1.234ms") /\
  Some (format_cpu_time 3000%Z) = Some (B "3ms") /\
  Some (format_cpu_time 12345678%Z) = Some (B "12.346s").
Proof. tests. Qed.

Example test_rusage_format_memory :
  Some (format_memory 0%Z) = Some (B "0KB") /\
  Some (format_memory 123%Z) = Some (B "123KB") /\
  Some (format_memory 1234%Z) = Some (B "1.205MB") /\
  Some (format_memory 12345678%Z) = Some (B "11.774GB").
Proof. tests. Qed.
