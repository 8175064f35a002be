(* C72, C73, C74: the feed made with the template of blogc-make. *)
From Verif Require Import Base Utils Trie TrieProofs Settings Filename FilenameSpec Template TemplateAbs TemplateSpec TemplateDoc
  TemplateFwd TemplateStruct P_Template Renderer RenderSpec P_Render Source Loader LoaderSpec LoaderProofs P_Loader P_Settings Atom AtomSpec.
#[local] Open Scope nat_scope.
#[local] Arguments B : simpl never.

(* ---------- the template as a document ---------- *)
Definition V (v : bytes) : item := IVar (B " ") v (B " ").
Definition T_ifdef (v : bytes) : item := ITag false TIfdef ONone (Some v) [] None (B " ifdef " ++ v ++ B " ") false.
Definition T_else : item := ITag false TElse ONone None [] None (B " else ") false.
Definition T_endif : item := ITag false TEndif ONone None [] None (B " endif ") false.
Definition T_listing : item := ITag true TBlock ONone (Some (B "listing")) [] None (B " block listing ") false.
Definition T_endblock : item := ITag true TEndblock ONone None [] None (B " endblock ") false.
Definition txt (t : bytes) : list item := match t with [] => [] | _ => [IText t] end.

Definition I1 : list item :=
  [IText (B "<?xml version=""1.0"" encoding=""utf-8""?>
<feed xmlns=""http://www.w3.org/2005/Atom"">
  <title type=""text"">"); V (B "SITE_TITLE"); T_ifdef (B "FILTER_TAG"); IText (B " - "); V (B "FILTER_TAG"); T_endif; IText (B "</title>
  <id>"); V (B "BASE_DOMAIN"); V (B "BASE_URL")].
Definition S2 : bytes := B "</id>
  <updated>".
Definition I2 : list item := [V (B "DATE_FIRST_FORMATTED"); IText (B "</updated>
  <link href="""); V (B "BASE_DOMAIN"); V (B "BASE_URL"); IText (B "/"" />
  <link href="""); V (B "BASE_DOMAIN"); V (B "BASE_URL")].
Definition S3 : bytes := B """ rel=""self"" />
  <author>
    <name>".
Definition I3 : list item := [V (B "AUTHOR_NAME"); IText (B "</name>
    <email>"); V (B "AUTHOR_EMAIL"); IText (B "</email>
  </author>
  <subtitle type=""text"">"); V (B "SITE_TAGLINE"); IText (B "</subtitle>
  "); T_listing; IText (B "
  <entry>
    <title type=""text"">"); V (B "TITLE"); IText (B "</title>
    <id>"); V (B "BASE_DOMAIN"); V (B "BASE_URL")].
Definition S4 : bytes := B "</id>
    <updated>".
Definition I4 : list item := [V (B "DATE_FORMATTED"); IText (B "</updated>
    <published>"); V (B "DATE_FORMATTED"); IText (B "</published>
    <link href="""); V (B "BASE_DOMAIN"); V (B "BASE_URL")].
Definition S5 : bytes := B """ />
    <author>
      <name>".
Definition I5 : list item := [V (B "AUTHOR_NAME"); IText (B "</name>
      <email>"); V (B "AUTHOR_EMAIL"); IText (B "</email>
    </author>
    <content type=""html""><![CDATA["); V (B "CONTENT"); IText (B "]]></content>
  </entry>
  "); T_endblock; IText (B "
</feed>
")].

(* [u]: what stands before the condition in the address of the feed; [alt]: whether there
   is an else *)
Definition url (u : bytes) (alt : bool) : list item :=
  txt u ++ [T_ifdef (B "FILTER_TAG"); IText (B "/"); V (B "FILTER_TAG")]
  ++ (if alt then [T_else; IText (B "/index")] else []) ++ [T_endif].
Definition items (u : bytes) (alt : bool) (ext pre hext : bytes) : list item :=
  I1 ++ url u alt ++ [IText (ext ++ S2)] ++ I2 ++ url u alt ++ [IText (ext ++ S3)] ++ I3
  ++ [IText pre; V (B "FILENAME"); IText (hext ++ S4)] ++ I4 ++ [IText pre; V (B "FILENAME"); IText (hext ++ S5)] ++ I5.

Lemma printf_template a p : printf atom_template [a; a; p; p] =
  Ok (items_text I1 ++ a ++ S2 ++ items_text I2 ++ a ++ S3 ++ items_text I3 ++ p ++ S4 ++ items_text I4 ++ p ++ S5 ++ items_text I5).
Proof. vm_compute. reflexivity. Qed.

Lemma items_text_app a b : items_text (a ++ b) = items_text a ++ items_text b.
Proof. unfold items_text. rewrite map_app, concat_app. reflexivity. Qed.
Lemma txt_text t : items_text (txt t) = t.
Proof. destruct t; [reflexivity|]. unfold txt, items_text. cbn [map concat item_text]. apply app_nil_r. Qed.
Lemma url_text u alt : items_text (url u alt) =
  u ++ B "{% ifdef FILTER_TAG %}/{{ FILTER_TAG }}" ++ when alt (B "{% else %}/index") ++ B "{% endif %}".
Proof. unfold url. rewrite items_text_app, txt_text. f_equal. destruct alt; vm_compute; reflexivity. Qed.
Lemma post_text pre x : items_text [IText pre; V (B "FILENAME"); IText x] = pre ++ B "{{ FILENAME }}" ++ x.
Proof. unfold items_text. cbn [map concat item_text]. rewrite app_nil_r. reflexivity. Qed.
Lemma text_text x : items_text [IText x] = x.
Proof. unfold items_text. cbn [map concat item_text]. apply app_nil_r. Qed.

Lemma items_template u alt ext pre hext : 
  let a := u ++ B "{% ifdef FILTER_TAG %}/{{ FILTER_TAG }}" ++ when alt (B "{% else %}/index") ++ B "{% endif %}" ++ ext in
  let p := pre ++ B "{{ FILENAME }}" ++ hext in
  printf atom_template [a; a; p; p] = Ok (items_text (items u alt ext pre hext)).
Proof.
  intros a p. rewrite printf_template. f_equal. unfold items.
  rewrite !items_text_app, !url_text, !post_text, !text_text. unfold a, p. rewrite <- !app_assoc. reflexivity.
Qed.

(* ---------- it is accepted ---------- *)
Definition plain (t : bytes) : Prop := ~ In "{"%char t /\ no_nul t.

Lemma plain_ok t : plain t -> text_ok t = true.
Proof.
  intros [H _]. induction t as [|c t IH]; [reflexivity|]. cbn [text_ok].
  replace (c == "{"%char) with false by (symmetry; apply eqb_false; intros ->; apply H; left; reflexivity).
  apply IH. intro X. apply H. right. exact X.
Qed.
Lemma plain_app a b : plain a -> plain b -> plain (a ++ b).
Proof. unfold plain, no_nul. intros [A1 A2] [B1 B2]. split; intro H; apply in_app_or in H; tauto. Qed.
Ltac closed_plain := split; [|unfold no_nul]; vm_compute; intuition discriminate.
Lemma plain_text t : plain t -> t <> [] -> item_ok (IText t).
Proof. intros H Hn. split; [exact Hn|apply plain_ok, H]. Qed.
Lemma var_ok v : name_ok v -> item_ok (V v). Proof. intro H. split; [reflexivity|]. split; [exact H|reflexivity]. Qed.
Lemma sp1 : blanks1 (B " "). Proof. split; [reflexivity|discriminate]. Qed.
Lemma ifdef_ok v : name_ok v -> item_ok (T_ifdef v).
Proof.
  intro H. split; [|left; auto]. apply (BNamed (ty := TIfdef) (w0 := B " ") (s1 := B " ") (v := v) (s2 := B " ")); auto using sp1; [simpl; auto|reflexivity].
Qed.
Lemma close_ok ld ty : In ty [TElse; TEndif; TEndforeach; TEndblock] -> item_ok (ITag ld ty ONone None [] None (B " " ++ keyword ty ++ B " ") false).
Proof. intro H. split; [|left; auto]. apply BClose; auto using sp1. reflexivity. Qed.
Lemma listing_ok : item_ok T_listing.
Proof.
  split; [|left; auto]. apply (BBlock (w0 := B " ") (s1 := B " ") (v := B "listing") (s2 := B " ")); auto using sp1; [reflexivity|simpl; auto].
Qed.
Ltac item := match goal with
  | |- item_ok (IText _) => apply plain_text; [closed_plain|discriminate]
  | |- item_ok (V _) => apply var_ok; split; reflexivity
  | |- item_ok (T_ifdef _) => apply ifdef_ok; split; reflexivity
  | |- item_ok T_else => apply (@close_ok false TElse); simpl; auto
  | |- item_ok T_endif => apply (@close_ok false TEndif); simpl; auto
  | |- item_ok T_endblock => apply (@close_ok true TEndblock); simpl; auto
  | |- item_ok T_listing => apply listing_ok
  end.
Ltac all_items := repeat (apply Forall_cons; [item|]); apply Forall_nil.

Lemma txt_ok t : plain t -> Forall item_ok (txt t).
Proof. intro H. destruct t; [apply Forall_nil|]. apply Forall_cons; [apply plain_text; [exact H|discriminate]|apply Forall_nil]. Qed.
Lemma url_ok u alt : plain u -> Forall item_ok (url u alt).
Proof.
  intro H. unfold url. apply Forall_app; split; [apply txt_ok, H|]. destruct alt; cbn [app]; all_items.
Qed.
Lemma items_fine u alt ext pre hext : plain u -> plain ext -> plain pre -> pre <> [] -> plain hext ->
  items_ok (items u alt ext pre hext).
Proof.
  intros Hu He Hp Hpn Hh. split.
  - unfold items.
    assert (A : forall x s, plain x -> plain s -> s <> [] -> item_ok (IText (x ++ s))).
    { intros x s Hx Hs Hn. apply plain_text; [apply plain_app; assumption|]. intro E. apply app_eq_nil in E. destruct E. contradiction. }
    apply Forall_app; split; [unfold I1; all_items|]. apply Forall_app; split; [apply url_ok, Hu|].
    apply Forall_app; split; [apply Forall_cons; [apply A; [assumption|closed_plain|discriminate]|apply Forall_nil]|].
    apply Forall_app; split; [unfold I2; all_items|]. apply Forall_app; split; [apply url_ok, Hu|].
    apply Forall_app; split; [apply Forall_cons; [apply A; [assumption|closed_plain|discriminate]|apply Forall_nil]|].
    apply Forall_app; split; [unfold I3; all_items|].
    apply Forall_app; split.
    { apply Forall_cons; [apply plain_text; assumption|]. apply Forall_cons; [item|].
      apply Forall_cons; [apply A; [assumption|closed_plain|discriminate]|apply Forall_nil]. }
    apply Forall_app; split; [unfold I4; all_items|].
    apply Forall_app; split.
    { apply Forall_cons; [apply plain_text; assumption|]. apply Forall_cons; [item|].
      apply Forall_cons; [apply A; [assumption|closed_plain|discriminate]|apply Forall_nil]. }
    unfold I5; all_items.
  - unfold items, url, txt. destruct u, alt; reflexivity.
Qed.
Lemma items_last u alt ext pre hext : last_text_kept (items u alt ext pre hext).
Proof.
  intros l' v x H. assert (E : last (items u alt ext pre hext) (IText []) = IText (v ++ ["{"%char; x])) by (rewrite H; apply last_last).
  assert (X : last (items u alt ext pre hext) (IText []) = IText (B "
</feed>
")).
  { unfold items. rewrite !app_assoc. unfold I5.
    match goal with |- last (?y ++ ?z) _ = _ => generalize y end. intro y.
    match goal with |- last (y ++ ?z) _ = _ => change z with (removelast z ++ [last z (IText [])]) end.
    rewrite app_assoc, last_last. reflexivity. }
  rewrite X in E. injection E as E.
  assert (In "{"%char (B "
</feed>
")) by (rewrite E; apply in_or_app; right; left; reflexivity).
  revert H0. vm_compute. intuition discriminate.
Qed.

(* the program *)
Definition p_url (u : bytes) (alt : bool) (k : prog) : prog :=
  let body := PText (B "/") (PVar (B "FILTER_TAG") PEnd) in
  let c := if alt then PIfElse (CDef (B "FILTER_TAG")) body (PText (B "/index") PEnd) k
           else PIf (CDef (B "FILTER_TAG")) body k in
  match u with [] => c | _ => PText u c end.
Definition p_base (k : prog) : prog := PVar (B "BASE_DOMAIN") (PVar (B "BASE_URL") k).
Definition p_entry (pre hext : bytes) : prog :=
  PText (B "
  <entry>
    <title type=""text"">") (PVar (B "TITLE") (PText (B "</title>
    <id>") (p_base (PText pre (PVar (B "FILENAME") (PText (hext ++ S4) (PVar (B "DATE_FORMATTED") (PText (B "</updated>
    <published>") (PVar (B "DATE_FORMATTED") (PText (B "</published>
    <link href=""") (p_base (PText pre (PVar (B "FILENAME") (PText (hext ++ S5) (PVar (B "AUTHOR_NAME") (PText (B "</name>
      <email>") (PVar (B "AUTHOR_EMAIL") (PText (B "</email>
    </author>
    <content type=""html""><![CDATA[") (PVar (B "CONTENT") (PText (B "]]></content>
  </entry>") PEnd)))))))))))))))))))).
Definition p_feed (u : bytes) (alt : bool) (ext pre hext : bytes) : prog :=
  PText (B "<?xml version=""1.0"" encoding=""utf-8""?>
<feed xmlns=""http://www.w3.org/2005/Atom"">
  <title type=""text"">") (PVar (B "SITE_TITLE") (PIf (CDef (B "FILTER_TAG")) (PText (B " - ") (PVar (B "FILTER_TAG") PEnd)) (PText (B "</title>
  <id>") (p_base (p_url u alt (PText (ext ++ S2) (PVar (B "DATE_FIRST_FORMATTED") (PText (B "</updated>
  <link href=""") (p_base (PText (B "/"" />
  <link href=""") (p_base (p_url u alt (PText (ext ++ S3) (PVar (B "AUTHOR_NAME") (PText (B "</name>
    <email>") (PVar (B "AUTHOR_EMAIL") (PText (B "</email>
  </author>
  <subtitle type=""text"">") (PVar (B "SITE_TAGLINE") (PText (B "</subtitle>")
  (PBlock (B "listing") (p_entry pre hext) (PText (B "
</feed>
") PEnd))))))))))))))))))))).

Lemma cstr_plain t : plain t -> cstr t = t. Proof. intros [_ H]. apply cstr_id. exact H. Qed.
Lemma doc_feed u alt ext pre hext : plain u -> plain ext -> plain pre -> plain hext ->
  doc_nodes false (items u alt ext pre hext) = flatten (p_feed u alt ext pre hext).
Proof.
  intros Hu He Hp Hh.
  assert (A : forall x s, plain x -> plain s -> cstr (x ++ s) = x ++ s) by (intros; apply cstr_plain, plain_app; assumption).
  assert (E2 : cstr (ext ++ S2) = ext ++ S2) by (apply A; [assumption|closed_plain]).
  assert (E3 : cstr (ext ++ S3) = ext ++ S3) by (apply A; [assumption|closed_plain]).
  assert (E4 : cstr (hext ++ S4) = hext ++ S4) by (apply A; [assumption|closed_plain]).
  assert (E5 : cstr (hext ++ S5) = hext ++ S5) by (apply A; [assumption|closed_plain]).
  pose proof (cstr_plain Hu) as Eu. pose proof (cstr_plain Hp) as Ep.
  unfold items, url, txt, p_feed, p_url, p_base, p_entry, I1, I2, I3, I4, I5.
  destruct u as [|c u], alt; cbn [app doc_nodes flatten cleans_before T_ifdef T_else T_endif T_listing T_endblock V item_node orb
    cond_node closing option_map andb]; rewrite ?E2, ?E3, ?E4, ?E5, ?Eu, ?Ep; reflexivity.
Qed.

Lemma feed_parsed u alt ext pre hext : plain u -> plain ext -> plain pre -> pre <> [] -> plain hext ->
  template_parse (items_text (items u alt ext pre hext)) = Ok (inl (flatten (p_feed u alt ext pre hext))).
Proof.
  intros Hu He Hp Hpn Hh. apply parse_abs_inl.
  pose proof (doc_whole (items_fine alt Hu He Hp Hpn Hh) (@items_last u alt ext pre hext)) as H.
  rewrite <- (doc_feed alt Hu He Hp Hh).
  assert (E : exists s, s_run s_init (map item_type (items u alt ext pre hext)) = Some s /\ s_final s = true).
  { unfold items, url, txt. destruct u, alt; eexists; split; reflexivity. }
  destruct E as (s & E1 & E2). rewrite E1, E2 in H. exact H.
Qed.

(* ---------- what it means ---------- *)
(* the name whose value is looked for in the end *)
Definition base_of (v : bytes) : bytes :=
  let b := match size_suffix v with Some (b, _) => b | None => v end in
  match formatted_suffix b with Some b => b | None => b end.
(* the functions of funcvars.c 18-36 only serve names that begin with BLOGC_ *)
Definition only_blogc (funcs : list (bytes * (vars -> vars))) : Prop :=
  Forall (fun f => starts_with (fst f) (B "BLOGC_") = true) funcs.

Lemma no_inject funcs g v : only_blogc funcs -> starts_with v (B "BLOGC_") = false -> funcvars_eval funcs g v = g.
Proof.
  intros H Hv. unfold funcvars_eval. destruct (trie_lookup g v); [reflexivity|].
  destruct (find (fun f => beq v (fst f)) funcs) as [f|] eqn:E; [|reflexivity].
  apply find_some in E. destruct E as [E1 E2]. apply beq_eq in E2. unfold only_blogc in H. rewrite Forall_forall in H.
  specialize (H _ E1). cbv beta in H. rewrite <- E2, Hv in H. discriminate.
Qed.
Lemma resolve_same convert funcs v g l : only_blogc funcs -> starts_with (base_of v) (B "BLOGC_") = false ->
  snd (resolve convert (funcvars_eval funcs) v g l None) = g.
Proof.
  intros H Hv. unfold resolve, base_of in *. destruct (lookup v g l); [reflexivity|].
  destruct (beq v (B "FOREACH_ITEM") || beq v (B "FOREACH_VALUE")); [reflexivity|].
  destruct (size_suffix v) as [[b d]|].
  - destruct (formatted_suffix b) as [b'|]; cbn [snd]; apply no_inject; assumption.
  - destruct (formatted_suffix v) as [b'|]; cbn [snd]; apply no_inject; assumption.
Qed.

Section Meaning.
Variable convert : bytes -> bytes -> option bytes.
Variable funcs : list (bytes * (vars -> vars)).
Hypothesis Hfuncs : only_blogc funcs.
Variable sources : list (trie bytes).
Let inject := funcvars_eval funcs.

(* the text of a variable *)
Definition val (g : trie bytes) (l : option (trie bytes)) (v : bytes) : bytes :=
  match fst (resolve convert inject v g l None) with Some x => x | None => [] end.
Definition emits (t : prog) (e : env) (o : bytes) : Prop := meaning convert inject sources true false t None e = (o, e).

Lemma var_same v e : starts_with (base_of v) (B "BLOGC_") = false ->
  var_in convert inject v None e = (fst (resolve convert inject v (e_global e) (e_local e) None), e).
Proof.
  intro Hv. unfold var_in. pose proof (@resolve_same convert funcs v (e_global e) (e_local e) Hfuncs Hv) as H.
  fold inject in H. destruct (resolve convert inject v (e_global e) (e_local e) None) as [x g]. cbn [snd fst] in *. rewrite H. destruct e; reflexivity.
Qed.
Lemma em_end e : emits PEnd e []. Proof. reflexivity. Qed.
Lemma em_text x k e o : emits k e o -> emits (PText x k) e (x ++ o).
Proof. unfold emits. intro H. cbn [meaning]. rewrite H. reflexivity. Qed.
Lemma em_var v k e o : starts_with (base_of v) (B "BLOGC_") = false -> emits k e o ->
  emits (PVar v k) e (val (e_global e) (e_local e) v ++ o).
Proof. unfold emits. intros Hv H. cbn [meaning]. rewrite (var_same e Hv), H. reflexivity. Qed.
Lemma em_if v a k e x o1 o2 : starts_with (base_of v) (B "BLOGC_") = false ->
  fst (resolve convert inject v (e_global e) (e_local e) None) = x ->
  (x <> None -> emits a e o1) -> (x = None -> o1 = []) -> emits k e o2 -> emits (PIf (CDef v) a k) e (o1 ++ o2).
Proof.
  unfold emits. intros Hv Hx H1 H2 H. cbn [meaning holds]. rewrite (var_same e Hv), Hx. destruct x as [x|].
  - rewrite H1, H by discriminate. reflexivity.
  - rewrite H, (H2 eq_refl). reflexivity.
Qed.
Lemma em_ifelse v a b k e x o1 o2 : starts_with (base_of v) (B "BLOGC_") = false ->
  fst (resolve convert inject v (e_global e) (e_local e) None) = x ->
  (x <> None -> emits a e o1) -> (x = None -> emits b e o1) -> emits k e o2 -> emits (PIfElse (CDef v) a b k) e (o1 ++ o2).
Proof.
  unfold emits. intros Hv Hx H1 H2 H. cbn [meaning holds]. rewrite (var_same e Hv), Hx. destruct x as [x|].
  - rewrite H1, H by discriminate. reflexivity.
  - rewrite (H2 eq_refl), H. reflexivity.
Qed.
(* the listing, from an environment where no post was visible yet; afterwards the last one was *)
Lemma em_listing a e f : e_local e = None -> (forall p, In p sources -> emits a (Env (e_global e) (e_entries e) (Some p) (Some p)) (f p)) ->
  exists e', meaning convert inject sources true false (PBlock (B "listing") a PEnd) None e = (flat_map f sources, e')
    /\ e_global e' = e_global e /\ e_local e' = None.
Proof.
  intros Hl H. cbn [meaning]. unfold block_action. cbn [beq].
  change (beq (B "listing") (B "entry")) with false. change (beq (B "listing") (B "listing")) with true. cbv iota.
  destruct sources as [|p r] eqn:E.
  - cbn [length Nat.eqb negb andb leave_skipped]. exists e. split; [reflexivity|]. split; [reflexivity|exact Hl].
  - cbn [length Nat.eqb negb andb].
    assert (R : forall l e0, incl l (p :: r) -> e_global e0 = e_global e -> e_entries e0 = e_entries e -> e_local e0 = None ->
      exists e', rounds (fun x e => let '(o, e) := meaning convert inject (p :: r) true false a None (see e x) in (o, hide e)) (map Some l) e0
        = (flat_map f l, e') /\ e_global e' = e_global e /\ e_local e' = None).
    { induction l as [|x l IH]; intros e0 Hi G1 G2 G3.
      - exists e0. split; [reflexivity|]. split; assumption.
      - cbn [map rounds flat_map].
        assert (Ex : meaning convert inject (p :: r) true false a None (see e0 (Some x))
                     = (f x, Env (e_global e) (e_entries e) (Some x) (Some x))).
        { unfold see. rewrite G1, G2. specialize (H x (Hi x (or_introl eq_refl))). unfold emits in H. rewrite E in H. exact H. }
        rewrite Ex. clear Ex.
        destruct (IH (hide (Env (e_global e) (e_entries e) (Some x) (Some x)))) as (e' & E1 & E2 & E3); try reflexivity.
        { intros y Hy. apply Hi. right. exact Hy. }
        rewrite E1. exists e'. split; [reflexivity|]. split; assumption. }
    destruct (R (p :: r) e (incl_refl _) eq_refl eq_refl Hl) as (e' & E1 & E2 & E3).
    rewrite E1. exists e'. rewrite app_nil_r. split; [reflexivity|]. split; assumption.
Qed.

Lemma em_base k e o : emits k e o ->
  emits (p_base k) e (val (e_global e) (e_local e) (B "BASE_DOMAIN") ++ val (e_global e) (e_local e) (B "BASE_URL") ++ o).
Proof. intro H. apply em_var; [reflexivity|]. apply em_var; [reflexivity|exact H]. Qed.

Lemma tag_value g : fst (resolve convert inject (B "FILTER_TAG") g None None) = trie_lookup g (B "FILTER_TAG").
Proof.
  unfold resolve, lookup. destruct (trie_lookup g (B "FILTER_TAG")) as [t|] eqn:E; [reflexivity|].
  change (beq (B "FILTER_TAG") (B "FOREACH_ITEM") || beq (B "FILTER_TAG") (B "FOREACH_VALUE")) with false. cbv iota.
  change (size_suffix (B "FILTER_TAG")) with (@None (bytes * bytes)). cbv beta iota zeta.
  change (formatted_suffix (B "FILTER_TAG")) with (@None bytes). cbv beta iota zeta. unfold inject. rewrite no_inject by (exact Hfuncs || reflexivity). rewrite E. reflexivity.
Qed.

Definition tail_of (alt : bool) (tag : option bytes) : bytes :=
  match tag with Some t => B "/" ++ t | None => when alt (B "/index") end.
Lemma em_url u alt k e o : e_local e = None -> emits k e o ->
  emits (p_url u alt k) e (u ++ tail_of alt (trie_lookup (e_global e) (B "FILTER_TAG")) ++ o).
Proof.
  intros Hl H. unfold p_url.
  assert (C : emits (if alt then PIfElse (CDef (B "FILTER_TAG")) (PText (B "/") (PVar (B "FILTER_TAG") PEnd)) (PText (B "/index") PEnd) k
                     else PIf (CDef (B "FILTER_TAG")) (PText (B "/") (PVar (B "FILTER_TAG") PEnd)) k) e
               (tail_of alt (trie_lookup (e_global e) (B "FILTER_TAG")) ++ o)).
  { assert (Ht : forall t, trie_lookup (e_global e) (B "FILTER_TAG") = Some t ->
        emits (PText (B "/") (PVar (B "FILTER_TAG") PEnd)) e (B "/" ++ t)).
    { intros t Et. apply em_text. rewrite <- (app_nil_r t).
      replace t with (val (e_global e) (e_local e) (B "FILTER_TAG")) at 1
        by (unfold val; rewrite Hl, tag_value, Et; reflexivity).
      apply em_var; [reflexivity|apply em_end]. }
    assert (Hx : fst (resolve convert inject (B "FILTER_TAG") (e_global e) (e_local e) None) = trie_lookup (e_global e) (B "FILTER_TAG"))
      by (rewrite Hl; apply tag_value).
    destruct alt.
    - eapply em_ifelse; [reflexivity|exact Hx| | |exact H].
      + intro N. destruct (trie_lookup (e_global e) (B "FILTER_TAG")) as [t|] eqn:Et; [apply Ht; reflexivity|contradiction].
      + intros ->. cbn [tail_of when]. rewrite <- (app_nil_r (B "/index")). apply em_text, em_end.
    - eapply em_if; [reflexivity|exact Hx| | |exact H].
      + intro N. destruct (trie_lookup (e_global e) (B "FILTER_TAG")) as [t|] eqn:Et; [apply Ht; reflexivity|contradiction].
      + intros ->. reflexivity. }
  destruct u; [exact C|]. apply em_text, C.
Qed.

Ltac em := match goal with
  | |- emits (p_base _) _ _ => eapply em_base
  | |- emits (PText _ _) _ _ => eapply em_text
  | |- emits (PVar _ _) _ _ => eapply em_var; [reflexivity|]
  | |- emits PEnd _ _ => eapply em_end
  end.

Lemma em_entry pre hext e p : e_local e = Some p ->
  emits (p_entry pre hext) e
    (entry (val (e_global e)) (fun p => pre ++ val (e_global e) (Some p) (B "FILENAME") ++ hext) p).
Proof.
  intro Hl. unfold p_entry.
  match goal with |- emits ?t e ?o => enough (X : exists o', emits t e o' /\ o' = o) by (destruct X as (o' & X & <-); exact X) end.
  eexists. split; [repeat em|]. rewrite Hl. unfold entry, address, S4, S5. rewrite <- !app_assoc.
  reflexivity.
Qed.

(* what stands before the listing and after it *)
Lemma block_then n a k e o e' : meaning convert inject sources true false (PBlock n a PEnd) None e = (o, e') ->
  meaning convert inject sources true false (PBlock n a k) None e =
  let '(o2, e2) := meaning convert inject sources true false k None e' in (o ++ o2, e2).
Proof.
  cbn [meaning]. destruct (block_action sources true n e) as [act e0].
  match goal with |- (let '(_, _) := ?x in _) = _ -> _ => destruct x as [o1 e1] end.
  intro H. injection H as H1 H2. subst o e'. rewrite app_nil_r. reflexivity.
Qed.
(* like emits, but only the variables of the site stay as they are *)
Definition gives (t : prog) (e : env) (o : bytes) : Prop :=
  exists e', meaning convert inject sources true false t None e = (o, e') /\ e_global e' = e_global e.
Lemma gives_text x k e o : gives k e o -> gives (PText x k) e (x ++ o).
Proof. intros (e' & H & G). exists e'. cbn [meaning]. rewrite H. split; [reflexivity|exact G]. Qed.
Lemma gives_var v k e o : starts_with (base_of v) (B "BLOGC_") = false -> gives k e o ->
  gives (PVar v k) e (val (e_global e) (e_local e) v ++ o).
Proof. intros Hv (e' & H & G). exists e'. cbn [meaning]. rewrite (var_same e Hv), H. split; [reflexivity|exact G]. Qed.
Lemma gives_base k e o : gives k e o ->
  gives (p_base k) e (val (e_global e) (e_local e) (B "BASE_DOMAIN") ++ val (e_global e) (e_local e) (B "BASE_URL") ++ o).
Proof. intro H. apply gives_var; [reflexivity|]. apply gives_var; [reflexivity|exact H]. Qed.
Lemma gives_if v a k e x o1 o2 : starts_with (base_of v) (B "BLOGC_") = false ->
  fst (resolve convert inject v (e_global e) (e_local e) None) = x ->
  (x <> None -> emits a e o1) -> (x = None -> o1 = []) -> gives k e o2 -> gives (PIf (CDef v) a k) e (o1 ++ o2).
Proof.
  unfold emits. intros Hv Hx H1 H2 (e' & H & G). exists e'. cbn [meaning holds]. rewrite (var_same e Hv), Hx. destruct x as [x|].
  - rewrite H1, H by discriminate. split; [reflexivity|exact G].
  - rewrite H, (H2 eq_refl). split; [reflexivity|exact G].
Qed.
Lemma gives_ifelse v a b k e x o1 o2 : starts_with (base_of v) (B "BLOGC_") = false ->
  fst (resolve convert inject v (e_global e) (e_local e) None) = x ->
  (x <> None -> emits a e o1) -> (x = None -> emits b e o1) -> gives k e o2 -> gives (PIfElse (CDef v) a b k) e (o1 ++ o2).
Proof.
  unfold emits. intros Hv Hx H1 H2 (e' & H & G). exists e'. cbn [meaning holds]. rewrite (var_same e Hv), Hx. destruct x as [x|].
  - rewrite H1, H by discriminate. split; [reflexivity|exact G].
  - rewrite (H2 eq_refl), H. split; [reflexivity|exact G].
Qed.
Lemma gives_url u alt k e o : e_local e = None -> gives k e o ->
  gives (p_url u alt k) e (u ++ tail_of alt (trie_lookup (e_global e) (B "FILTER_TAG")) ++ o).
Proof.
  intros Hl H. unfold p_url.
  assert (C : gives (if alt then PIfElse (CDef (B "FILTER_TAG")) (PText (B "/") (PVar (B "FILTER_TAG") PEnd)) (PText (B "/index") PEnd) k
                     else PIf (CDef (B "FILTER_TAG")) (PText (B "/") (PVar (B "FILTER_TAG") PEnd)) k) e
               (tail_of alt (trie_lookup (e_global e) (B "FILTER_TAG")) ++ o)).
  { assert (Ht : forall t, trie_lookup (e_global e) (B "FILTER_TAG") = Some t ->
        emits (PText (B "/") (PVar (B "FILTER_TAG") PEnd)) e (B "/" ++ t)).
    { intros t Et. apply em_text. rewrite <- (app_nil_r t).
      replace t with (val (e_global e) (e_local e) (B "FILTER_TAG")) at 1
        by (unfold val; rewrite Hl, tag_value, Et; reflexivity).
      apply em_var; [reflexivity|apply em_end]. }
    assert (Hx : fst (resolve convert inject (B "FILTER_TAG") (e_global e) (e_local e) None) = trie_lookup (e_global e) (B "FILTER_TAG"))
      by (rewrite Hl; apply tag_value).
    destruct alt.
    - eapply gives_ifelse; [reflexivity|exact Hx| | |exact H].
      + intro N. destruct (trie_lookup (e_global e) (B "FILTER_TAG")) as [t|] eqn:Et; [apply Ht; reflexivity|contradiction].
      + intros ->. cbn [tail_of when]. rewrite <- (app_nil_r (B "/index")). apply em_text, em_end.
    - eapply gives_if; [reflexivity|exact Hx| | |exact H].
      + intro N. destruct (trie_lookup (e_global e) (B "FILTER_TAG")) as [t|] eqn:Et; [apply Ht; reflexivity|contradiction].
      + intros ->. reflexivity. }
  destruct u; [exact C|]. apply gives_text, C.
Qed.
Lemma gives_title k e o : e_local e = None -> gives k e o ->
  gives (PIf (CDef (B "FILTER_TAG")) (PText (B " - ") (PVar (B "FILTER_TAG") PEnd)) k) e
    ((match trie_lookup (e_global e) (B "FILTER_TAG") with Some t => B " - " ++ t | None => [] end) ++ o).
Proof.
  intros Hl H. eapply gives_if; [reflexivity|rewrite Hl; apply tag_value| | |exact H].
  - intro N. destruct (trie_lookup (e_global e) (B "FILTER_TAG")) as [t|] eqn:Et; [|contradiction].
    apply em_text. rewrite <- (app_nil_r t).
    replace t with (val (e_global e) (e_local e) (B "FILTER_TAG")) at 1
      by (unfold val; rewrite Hl, tag_value, Et; reflexivity).
    apply em_var; [reflexivity|apply em_end].
  - intros ->. reflexivity.
Qed.
Lemma gives_listing pre hext k e : e_local e = None -> (forall e', e_global e' = e_global e -> e_local e' = None -> gives k e' (B "
</feed>
")) ->
  gives (PBlock (B "listing") (p_entry pre hext) k) e
    (flat_map (entry (val (e_global e)) (fun p => pre ++ val (e_global e) (Some p) (B "FILENAME") ++ hext)) sources ++ B "
</feed>
").
Proof.
  intros Hl Hk.
  destruct (@em_listing (p_entry pre hext) e (entry (val (e_global e)) (fun p => pre ++ val (e_global e) (Some p) (B "FILENAME") ++ hext)) Hl)
    as (e' & E1 & E2 & E3).
  { intros p _. apply (@em_entry pre hext (Env (e_global e) (e_entries e) (Some p) (Some p)) p). reflexivity. }
  destruct (Hk e' E2 E3) as (e2 & K1 & K2). exists e2. rewrite (block_then k E1), K1. split; [reflexivity|congruence].
Qed.
Ltac gv := match goal with
  | |- gives (p_base _) _ _ => eapply gives_base
  | |- gives (p_url _ _ _) _ _ => eapply gives_url; [assumption|]
  | |- gives (PIf _ _ _) _ _ => eapply gives_title; [assumption|]
  | |- gives (PText _ (PBlock _ _ _)) _ _ => eapply gives_text; eapply gives_listing; [assumption|]
  | |- gives (PText _ _) _ _ => eapply gives_text
  | |- gives (PVar _ _) _ _ => eapply gives_var; [reflexivity|]
  end.
Lemma gives_feed u alt ext pre hext e : e_local e = None ->
  gives (p_feed u alt ext pre hext) e
    (feed (val (e_global e)) (trie_lookup (e_global e) (B "FILTER_TAG")) (u ++ tail_of alt (trie_lookup (e_global e) (B "FILTER_TAG")) ++ ext)
      (fun p => pre ++ val (e_global e) (Some p) (B "FILENAME") ++ hext) sources).
Proof.
  intro Hl. unfold p_feed.
  match goal with |- gives ?t e ?o => enough (X : exists o', gives t e o' /\ o' = o) by (destruct X as (o' & X & <-); exact X) end.
  eexists. split.
  - do 100 (try gv). intros e' _ _. exists e'. split; reflexivity.
  - rewrite Hl. unfold feed, address, S2, S3. rewrite <- !app_assoc. reflexivity.
Qed.
End Meaning.

(* ---------- the addresses ---------- *)
Definition lead (bp : option bytes) (ap : bytes) : bytes :=
  match bp with Some b => B "/" ++ b | None => [] end ++ when (nonempty_str ap) (B "/") ++ ap.
Definition alternative (ap ext : bytes) : bool := negb (nonempty_str ap) && negb (starts_slash ext).
Definition pre_of (bp pp : option bytes) : bytes :=
  when (have bp) (B "/" ++ text bp) ++ B "/" ++ when (have pp) (text pp ++ B "/").

Lemma some_of (r : bytes) : r <> [] -> match r with [] => None | _ => Some r end = Some r.
Proof. destruct r; [contradiction|reflexivity]. Qed.
Lemma when_text x : when (have x) (text x) = text x. Proof. destruct x as [[|]|]; reflexivity. Qed.
Lemma gen_named dir bp pp f he : f <> [] -> starts_slash f = false ->
  (beq f (B "index") && starts_slash (text he) && negb (have pp)) = false ->
  generate_filename dir bp pp (Some f) he = Some (text dir ++ pre_of bp pp ++ f ++ text he).
Proof.
  intros Hf Hs Hi. unfold generate_filename. cbv zeta.
  replace (have (Some f)) with true by (destruct f; [contradiction|reflexivity]). cbn [text]. rewrite Hs.
  assert (Hi' : (true && have he && beq f (B "index") && starts_slash (text he) && negb (have pp)) = false).
  { cbn [andb]. rewrite <- !andb_assoc, (andb_assoc (beq _ _)), Hi. apply andb_false_r. }
  rewrite Hi', !when_text. rewrite !orb_true_r. cbn [negb andb orb when]. rewrite andb_true_r.
  rewrite some_of.
  - f_equal. unfold pre_of. rewrite <- !app_assoc. do 3 f_equal. destruct (have pp) eqn:Ep; cbn [when orb andb]; [rewrite <- !app_assoc; reflexivity|].
    destruct pp as [[|]|]; [reflexivity|discriminate|reflexivity].
  - intro E. apply (f_equal (@length _)) in E. rewrite !app_length in E. destruct f; [contradiction|]. cbn in E. lia.
Qed.

Lemma gen_feed dir bp ap ae tag : bp <> Some [] -> (ap <> [] \/ ae <> []) ->
  (forall t, tag = Some t -> t <> [] /\ ~ slash t /\ ~ (t = B "index" /\ ap = [] /\ slash ae)) ->
  generate_filename (Some dir) bp (Some ap) tag (Some ae) = Some (dir ++ lead bp ap ++ tail_of (alternative ap ae) tag ++ ae).
Proof.
  intros Hb Ha Ht.
  assert (Eb : when (have bp) (B "/" ++ text bp) = match bp with Some b => B "/" ++ b | None => [] end)
    by (destruct bp as [[|]|]; [contradiction|reflexivity|reflexivity]).
  destruct tag as [t|].
  - destruct (Ht t eq_refl) as (H1 & H2 & H3). rewrite gen_named; [|exact H1| |].
    + cbn [text tail_of]. f_equal. f_equal. unfold pre_of, lead. rewrite Eb. rewrite <- !app_assoc. f_equal.
      destruct ap as [|c ap]; cbn [have text nonempty_str when app]; [reflexivity|]. rewrite <- !app_assoc. reflexivity.
    + destruct (starts_slash t) eqn:E; [|reflexivity]. exfalso. apply H2. destruct t as [|c t]; [discriminate|].
      apply eqb_true in E. subst c. exists t. reflexivity.
    + destruct (beq t (B "index") && starts_slash (text (Some ae)) && negb (have (Some ap))) eqn:E; [|reflexivity]. exfalso. apply H3.
      apply andb_true_iff in E. destruct E as [E E3]. apply andb_true_iff in E. destruct E as [E1 E2]. apply beq_eq in E1.
      split; [exact E1|]. split; [destruct ap; [reflexivity|discriminate]|].
      cbn [text] in E2. destruct ae as [|c ae]; [discriminate|]. apply eqb_true in E2. subst c. exists ae. reflexivity.
  - unfold generate_filename. cbv zeta. cbn [have text andb negb when orb]. rewrite ?orb_false_r, ?andb_true_r, Eb.
    unfold lead, tail_of, alternative.
    destruct ap as [|c ap]; cbn [nonempty_str have negb andb orb when app].
    + destruct Ha as [Ha|Ha]; [contradiction|]. destruct ae as [|d ae]; [contradiction|]. cbn [have andb].
      rewrite !orb_true_r. cbn [when app]. cbn [starts_slash]. destruct (d == "/"%char) eqn:Ed; cbn [negb when app].
      * rewrite some_of, <- !app_assoc; [reflexivity|]. intro E. apply (f_equal (@length _)) in E. rewrite !app_length in E. cbn in E. lia.
      * rewrite some_of, <- !app_assoc; [reflexivity|]. intro E. apply (f_equal (@length _)) in E. rewrite !app_length in E. cbn in E. lia.
    + rewrite !orb_true_r. cbn [orb when].
      assert (Ex : forall b : bool, (if b then [] else []) = @nil ascii) by (intros []; reflexivity). rewrite Ex.
      assert (Ee : when (match ae with [] => false | _ => true end) ae = ae) by (destruct ae; reflexivity). rewrite Ee.
      rewrite some_of, <- !app_assoc; [reflexivity|]. intro E. apply (f_equal (@length _)) in E. rewrite !app_length in E. cbn in E. lia.
Qed.

Lemma printf_plain b l : ~ In "%"%char b -> printf b l = Ok b.
Proof.
  induction b as [|c b IH]; intro H; [reflexivity|]. cbn [printf].
  replace (c == "%"%char) with false by (symmetry; apply eqb_false; intros ->; apply H; left; reflexivity).
  rewrite IH; [reflexivity|]. intro X. apply H. right. exact X.
Qed.

(* ---------- C72 ---------- *)
(* the address of a post below the site's: as its file is named *)
Definition post_link (bp pp he : option bytes) (name : bytes) : bytes := pre_of bp pp ++ name ++ text he.
(* what a setting must not have: the template and the format are made with it *)
Definition harmless (x : option bytes) : Prop := plain (text x).

Lemma plain_when b x : plain x -> plain (when b x). Proof. destruct b; [auto|intros _; split; intros []]. Qed.
Lemma fits_feed u alt ext pre hext : fits false false (p_feed u alt ext pre hext).
Proof.
  unfold p_feed, p_url, p_entry, p_base. destruct u, alt; cbn [fits cond_ok];
    repeat match goal with |- _ /\ _ => split | |- _ <> _ => discriminate | |- True => exact I | |- _ = _ => reflexivity | |- fits _ _ _ => progress cbn [fits] end.
Qed.
Lemma calm_feed sources u alt ext pre hext : calm sources true false (p_feed u alt ext pre hext) = true.
Proof.
  unfold p_feed, p_url, p_entry, p_base. destruct u, alt; cbn [calm showing shows may_show orb andb negb];
    rewrite ?orb_true_r; reflexivity.
Qed.

Theorem C72_feed_partial convert funcs st bp ap ae pp he sources config dir :
  let tag := trie_lookup config (B "FILTER_TAG") in
  bp = trie_lookup (s_settings st) (B "blog_prefix") -> pp = trie_lookup (s_settings st) (B "post_prefix") ->
  he = trie_lookup (s_settings st) (B "html_ext") ->
  trie_lookup (s_settings st) (B "atom_prefix") = Some ap -> trie_lookup (s_settings st) (B "atom_ext") = Some ae ->
  harmless bp -> harmless pp -> harmless he -> plain ap -> plain ae -> ~ In "%"%char (text bp) ->
  bp <> Some [] -> (ap <> [] \/ ae <> []) ->
  (forall t, tag = Some t -> t <> [] /\ ~ slash t /\ ~ (t = B "index" /\ ap = [] /\ slash ae)) ->
  only_blogc funcs ->
  exists tmpl ast fuel self,
    atom_generate st = Ok tmpl /\ template_parse tmpl = Ok (inl ast) /\
    generate_filename (Some dir) bp (Some ap) tag (Some ae) = Some (dir ++ self) /\
    render convert funcs ast sources true fuel [] config =
    Ok (Some (feed (val convert funcs config) tag self
                (fun p => post_link bp pp he (val convert funcs config (Some p) (B "FILENAME"))) sources), config).
Proof.
  intros tag -> -> -> Hap Hae Pb Pp Ph Pa Pe Hpc Hb Hae' Ht Hf.
  set (bp := trie_lookup (s_settings st) (B "blog_prefix")) in *. set (pp := trie_lookup (s_settings st) (B "post_prefix")) in *.
  set (he := trie_lookup (s_settings st) (B "html_ext")) in *. unfold harmless in *.
  assert (Pu : plain (lead bp ap)).
  { unfold lead. apply plain_app; [|apply plain_app; [apply plain_when; closed_plain|exact Pa]].
    destruct bp as [b|]; [apply plain_app; [closed_plain|exact Pb]|split; intros []]. }
  assert (Pr : plain (pre_of bp pp)).
  { unfold pre_of. apply plain_app; [apply plain_when, plain_app; [closed_plain|exact Pb]|].
    apply plain_app; [closed_plain|]. apply plain_when, plain_app; [exact Pp|closed_plain]. }
  assert (Nr : pre_of bp pp <> []).
  { unfold pre_of. intro E. apply (f_equal (@length _)) in E. rewrite !app_length in E. change (length (B "/")) with 1 in E. cbn [length] in E. lia. }
  set (alt := alternative ap ae).
  exists (items_text (items (lead bp ap) alt ae (pre_of bp pp) (text he))), (flatten (p_feed (lead bp ap) alt ae (pre_of bp pp) (text he))).
  destruct (@C23_structure_partial convert funcs sources true (p_feed (lead bp ap) alt ae (pre_of bp pp) (text he)) [] config) as (fuel & R).
  { apply fits_feed. } { unfold p_feed. cbn [flatten]. discriminate. } { apply calm_feed. }
  exists fuel, (lead bp ap ++ tail_of alt tag ++ ae).
  split; [|split; [|split]].
  - unfold atom_generate. rewrite Hap, Hae. fold bp pp he.
    assert (Ep : match bp with Some b => do x <- printf b [] ; Ok (B "/" ++ x) | None => Ok [] end
                 = Ok (match bp with Some b => B "/" ++ b | None => [] end)).
    { destruct bp as [b|]; [|reflexivity]. cbn [text] in Hpc. rewrite printf_plain by exact Hpc. reflexivity. }
    rewrite Ep. cbn [rbind].
    rewrite (@gen_named None bp pp (B "{{ FILENAME }}") he); [|discriminate|reflexivity|reflexivity].
    rewrite <- items_template. cbv zeta. unfold lead, alt, alternative. cbn [text app]. rewrite <- !app_assoc. reflexivity.
  - apply feed_parsed; assumption.
  - apply gen_feed; assumption.
  - rewrite R. unfold output.
    destruct (@gives_feed convert funcs Hf sources (lead bp ap) alt ae (pre_of bp pp) (text he) (Env config [] None None) eq_refl)
      as (e' & E1 & E2).
    unfold vars in *. cbv zeta in E1. rewrite E1. cbn [fst snd]. rewrite E2. reflexivity.
Qed.
Print Assumptions C72_feed_partial.

(* ---------- C73 ---------- *)
(* A post whose source has the name blogc-make gives it is linked where blogc-make writes it. *)
Theorem C73_links_partial convert funcs contents fuel conf bp pp he content ext slug root f t dir config :
  slug <> [] -> ~ In "/"%char slug -> ~ In BSL slug ->
  ~ In "."%char ext -> ~ In "/"%char ext -> ~ In BSL ext ->
  ~ (slug = B "index" /\ text pp = [] /\ slash (text he)) ->
  generate_filename content bp pp (Some slug) (Some ("."%char :: ext)) = Some f ->
  source_parse_from_file contents fuel conf (root ++ f) = Ok (Loaded t) ->
  generate_filename (Some dir) bp pp (Some slug) he
  = Some (dir ++ post_link bp pp he (val convert funcs config (Some t) (B "FILENAME"))).
Proof.
  intros Hn Hs1 Hs2 He1 He2 He3 Hi Hf Hl.
  assert (Ns : starts_slash slug = false).
  { destruct slug as [|c s]; [contradiction|]. apply eqb_false. intros ->. apply Hs1. left. reflexivity. }
  rewrite gen_named in Hf; [|exact Hn|exact Ns|].
  2:{ cbn [text starts_slash]. change ("."%char == "/"%char) with false. rewrite andb_false_r. reflexivity. }
  injection Hf as <-. cbn [text] in Hl.
  assert (Nf : root ++ text content ++ pre_of bp pp ++ slug ++ "."%char :: ext <> []).
  { intro E. apply (f_equal (@length _)) in E. rewrite !app_length in E. cbn [length] in E. lia. }
  assert (V : trie_lookup t (B "FILENAME") = Some slug).
  { refine (@C33_variable contents fuel conf _ slug t Nf _ Hl).
    exists (root ++ text content ++ pre_of bp pp), ("."%char :: ext). split; [rewrite <- !app_assoc; reflexivity|]. split; [|split].
    - right. unfold pre_of. destruct (have pp); cbn [when].
      + exists (root ++ text content ++ when (have bp) (B "/" ++ text bp) ++ B "/" ++ text pp), "/"%char. split; [|left; reflexivity].
        rewrite <- !app_assoc. reflexivity.
      + exists (root ++ text content ++ when (have bp) (B "/" ++ text bp)), "/"%char. split; [|left; reflexivity].
        rewrite <- !app_assoc. reflexivity.
    - apply Forall_forall. intros c Hc [->| ->]; apply in_app_or in Hc; destruct Hc as [Hc|[Hc|Hc]]; try discriminate; contradiction.
    - right. exists ext. split; [reflexivity|exact He1]. }
  assert (W : val convert funcs config (Some t) (B "FILENAME") = slug).
  { unfold val, resolve, lookup. rewrite V. reflexivity. }
  rewrite W. unfold post_link. rewrite gen_named; [reflexivity|exact Hn|exact Ns|].
  destruct (beq slug (B "index") && starts_slash (text he) && negb (have pp)) eqn:E; [|reflexivity]. exfalso. apply Hi.
  apply andb_true_iff in E. destruct E as [E E3]. apply andb_true_iff in E. destruct E as [E1 E2]. apply beq_eq in E1.
  split; [exact E1|]. split; [destruct pp as [[|]|]; [reflexivity|discriminate|reflexivity]|].
  destruct (text he) as [|c r]; [discriminate|]. apply eqb_true in E2. subst c. exists r. reflexivity.
Qed.
Print Assumptions C73_links_partial.

(* ---------- C74 ---------- *)
(* documents as trees *)
Inductive cont : Type := CT (s : bytes) | CM (s : bytes) (m : mark) (r : cont)
with mark : Type := ME (n : bytes) (l : list (bytes * bytes)) (c : cont) | MS (n : bytes) (l : list (bytes * bytes)) | MC (s : bytes).
Fixpoint cont_text (c : cont) : bytes :=
  match c with CT s => s | CM s m r => s ++ mark_text m ++ cont_text r end
with mark_text (m : mark) : bytes :=
  match m with
  | ME n l c => B "<" ++ n ++ attributes l ++ B ">" ++ cont_text c ++ B "</" ++ n ++ B ">"
  | MS n l => B "<" ++ n ++ attributes l ++ B " />"
  | MC s => B "<![CDATA[" ++ s ++ B "]]>"
  end.
Definition tag_ok (n : bytes) (l : list (bytes * bytes)) : Prop := xml_name n /\ Forall attr_ok l /\ NoDup (map fst l).
Fixpoint cont_ok (c : cont) : Prop :=
  match c with CT s => chars s | CM s m r => chars s /\ mark_ok m /\ cont_ok r end
with mark_ok (m : mark) : Prop :=
  match m with
  | ME n l c => tag_ok n l /\ cont_ok c
  | MS n l => tag_ok n l
  | MC s => ~ has (B "]]>") s
  end.
Lemma tree_content : forall c, cont_ok c -> content (cont_text c)
with tree_markup : forall m, mark_ok m -> markup (mark_text m).
Proof.
  - intros [s|s m r].
    + intro H. apply X_text. exact H.
    + intros (H1 & H2 & H3). apply X_markup; [exact H1|apply tree_markup, H2|apply tree_content, H3].
  - intros [n l c|n l|s].
    + intros ((H1 & H2 & H3) & H4). apply X_element; [exact H1|exact H2|exact H3|apply tree_content, H4].
    + intros (H1 & H2 & H3). apply X_empty; assumption.
    + intro H. apply X_cdata, H.
Qed.

Section Tree.
Variable P : Type.
Variable val : option P -> bytes -> bytes.
Variable tag : option bytes.
Variable self : bytes.
Variable link : P -> bytes.
Let adr := address val.

Definition type_ (t : bytes) : bytes * bytes := (B "type", t).
Definition leaf (n : bytes) (s : bytes) : mark := ME n [] (CT s).
Definition t_author (pad : bytes) (p : option P) : mark :=
  ME (B "author") [] (CM (pad ++ B "  ") (leaf (B "name") (val p (B "AUTHOR_NAME")))
    (CM (pad ++ B "  ") (leaf (B "email") (val p (B "AUTHOR_EMAIL"))) (CT pad))).
Definition t_entry (p : P) : mark :=
  let v := val (Some p) in let i := B "
    " in
  ME (B "entry") [] (CM i (ME (B "title") [type_ (B "text")] (CT (v (B "TITLE"))))
    (CM i (leaf (B "id") (adr (Some p) (link p))) (CM i (leaf (B "updated") (v (B "DATE_FORMATTED")))
    (CM i (leaf (B "published") (v (B "DATE_FORMATTED"))) (CM i (MS (B "link") [(B "href", adr (Some p) (link p))])
    (CM i (t_author i (Some p)) (CM i (ME (B "content") [type_ (B "html")] (CM [] (MC (v (B "CONTENT"))) (CT [])))
    (CT (B "
  "))))))))).
Fixpoint t_entries (l : list P) : cont :=
  match l with [] => CT (B "
") | p :: r => CM (B "
  ") (t_entry p) (t_entries r) end.
Definition t_title : bytes := val None (B "SITE_TITLE") ++ match tag with Some t => B " - " ++ t | None => [] end.
Definition t_feed (posts : list P) : cont :=
  let v := val None in let i := B "
  " in
  CM i (ME (B "title") [type_ (B "text")] (CT t_title)) (CM i (leaf (B "id") (adr None self))
  (CM i (leaf (B "updated") (v (B "DATE_FIRST_FORMATTED"))) (CM i (MS (B "link") [(B "href", adr None (B "/"))])
  (CM i (MS (B "link") [(B "href", adr None self); (B "rel", B "self")]) (CM i (t_author i None)
  (CM i (ME (B "subtitle") [type_ (B "text")] (CT (v (B "SITE_TAGLINE")))) (t_entries posts))))))).

Lemma entries_text posts : cont_text (t_entries posts) = flat_map (entry val link) posts ++ [LF].
Proof.
  induction posts as [|p r IH]; [reflexivity|]. cbn [t_entries cont_text flat_map]. rewrite IH.
  unfold t_entry, t_author, leaf, entry, adr, attributes, attribute, type_. cbn [mark_text cont_text flat_map fst snd].
  unfold attributes. cbn [flat_map]. unfold attribute. cbn [fst snd].
  rewrite <- !app_assoc. reflexivity.
Qed.
Lemma feed_text posts : feed val tag self link posts =
  B "<?xml version=""1.0"" encoding=""utf-8""?>" ++ [LF] ++ B "<" ++ B "feed" ++ attributes [(B "xmlns", B "http://www.w3.org/2005/Atom")]
  ++ B ">" ++ cont_text (t_feed posts) ++ B "</" ++ B "feed" ++ B ">" ++ [LF].
Proof.
  unfold t_feed. cbn [cont_text]. rewrite entries_text.
  unfold t_author, leaf, feed, adr, type_, t_title. cbn [mark_text cont_text].
  unfold attributes. cbn [flat_map]. unfold attribute. cbn [fst snd].
  rewrite <- !app_assoc. reflexivity.
Qed.
End Tree.

(* text that can stand in an attribute as well *)
Definition quotable (s : bytes) : Prop := chars s /\ ~ In DQ s.

(* is p in s *)
Fixpoint found (p s : bytes) : bool := starts_with s p || match s with [] => false | _ :: r => found p r end.
Lemma found_has p s : found p s = false -> ~ has p s.
Proof.
  intros H (a & b & ->). revert H. induction a as [|c a IH].
  - rewrite app_nil_l. intro H.
    assert (S : forall p l, starts_with (p ++ l) p = true).
    { clear. induction p as [|x p IHp]; intro l; [destruct l; reflexivity|]. cbn [app starts_with]. rewrite eqb_refl. apply IHp. }
    destruct (p ++ b) eqn:E; cbn [found] in H; rewrite <- E, S in H; discriminate H.
  - cbn [app found]. intro H. apply orb_false_iff in H. apply IH, H.
Qed.
Lemma chars_closed s : forallb (fun c => negb (c == "<"%char) && negb (c == "&"%char)) s = true -> found (B "]]>") s = false -> chars s.
Proof.
  intros H E. rewrite forallb_forall in H. split; [|split].
  - intro X. specialize (H _ X). discriminate.
  - intro X. specialize (H _ X). discriminate.
  - apply found_has, E.
Qed.
Lemma attr_closed n v : forallb name_char n = true -> n <> [] ->
  forallb (fun c => negb (c == "<"%char) && negb (c == "&"%char) && negb (c == DQ)) v = true -> attr_ok (n, v).
Proof.
  intros H1 H2 H. rewrite forallb_forall in H. split; [split; assumption|]. cbn [snd].
  split; [|split]; intro X; specialize (H _ X); discriminate.
Qed.
Lemma attr_quotable n v : forallb name_char n = true -> n <> [] -> quotable v -> attr_ok (n, v).
Proof. intros H1 H2 ((A & C & _) & D). split; [split; assumption|]. cbn [snd]. tauto. Qed.

Theorem C74_wellformed P (val : option P -> bytes -> bytes) tag self link posts :
  chars (val None (B "SITE_TITLE") ++ match tag with Some t => B " - " ++ t | None => [] end) ->
  (forall n, In n [B "SITE_TAGLINE"; B "AUTHOR_NAME"; B "AUTHOR_EMAIL"; B "DATE_FIRST_FORMATTED"] -> chars (val None n)) ->
  quotable (address val None self) -> quotable (address val None (B "/")) ->
  (forall p, In p posts ->
     (forall n, In n [B "TITLE"; B "AUTHOR_NAME"; B "AUTHOR_EMAIL"; B "DATE_FORMATTED"] -> chars (val (Some p) n))
     /\ quotable (address val (Some p) (link p)) /\ ~ has (B "]]>") (val (Some p) (B "CONTENT"))) ->
  document (feed val tag self link posts).
Proof.
  intros H1 H2 H3 H4 H5. rewrite feed_text.
  assert (N0 : NoDup (@nil bytes)) by constructor.
  assert (N1 : forall x : bytes, NoDup [x]) by (intro; constructor; [intros []|constructor]).
  assert (X : forall n, forallb name_char n = true -> n <> [] -> xml_name n) by (split; assumption).
  assert (L : forall n s, forallb name_char n = true -> n <> [] -> chars s -> mark_ok (leaf n s)).
  { intros n s A C D. split; [|exact D]. split; [split; assumption|]. split; [apply Forall_nil|exact N0]. }
  assert (T : forall n t s, forallb name_char n = true -> n <> [] ->
     forallb (fun c => negb (c == "<"%char) && negb (c == "&"%char) && negb (c == DQ)) t = true ->
     cont_ok s -> mark_ok (ME n [type_ t] s)).
  { intros n t s A C D E. split; [|exact E]. split; [split; assumption|]. split; [|apply N1].
    apply Forall_cons; [|apply Forall_nil]. apply attr_closed; [reflexivity|discriminate|exact D]. }
  apply X_document; [split; [discriminate|reflexivity]| |apply N1|].
  - apply Forall_cons; [|apply Forall_nil]. apply attr_closed; [reflexivity|discriminate|reflexivity].
  - apply tree_content. cbn [t_feed cont_ok].
    assert (I1 : chars (B "
  ")) by (apply chars_closed; reflexivity).
    assert (I2 : chars (B "
    ")) by (apply chars_closed; reflexivity).
    assert (A : forall pad p, chars pad -> chars (pad ++ B "  ") -> chars (val p (B "AUTHOR_NAME")) -> chars (val p (B "AUTHOR_EMAIL")) ->
       mark_ok (t_author val pad p)).
    { intros pad p A1 A2 A3 A4. split; [split; [split; [discriminate|reflexivity]|split; [apply Forall_nil|exact N0]]|].
      cbn [cont_ok]. split; [exact A2|]. split; [apply L; [reflexivity|discriminate|exact A3]|].
      split; [exact A2|]. split; [apply L; [reflexivity|discriminate|exact A4]|]. exact A1. }
    split; [exact I1|]. split; [apply T; [reflexivity|discriminate|reflexivity|exact H1]|].
    split; [exact I1|]. split; [apply L; [reflexivity|discriminate|apply H3]|].
    split; [exact I1|]. split; [apply L; [reflexivity|discriminate|apply H2; cbn [In]; tauto]|].
    split; [exact I1|]. split.
    { split; [split; [discriminate|reflexivity]|]. split; [|apply N1].
      apply Forall_cons; [apply attr_quotable; [reflexivity|discriminate|exact H4]|apply Forall_nil]. }
    split; [exact I1|]. split.
    { split; [split; [discriminate|reflexivity]|]. split.
      - apply Forall_cons; [apply attr_quotable; [reflexivity|discriminate|exact H3]|].
        apply Forall_cons; [apply attr_closed; [reflexivity|discriminate|reflexivity]|apply Forall_nil].
      - constructor; [|apply N1]. intros [E|[]]. discriminate E. }
    split; [exact I1|]. split.
    { apply A; [exact I1|apply chars_closed; reflexivity|apply H2; cbn [In]; tauto|apply H2; cbn [In]; tauto]. }
    split; [exact I1|]. split; [apply T; [reflexivity|discriminate|reflexivity|apply H2; cbn [In]; tauto]|].
    revert H5. clear - I1 I2 N0 N1 X L T A. induction posts as [|p r IH]; intro H5; [apply chars_closed; reflexivity|].
    cbn [t_entries cont_ok]. split; [exact I1|]. split; [|apply IH; intros q Hq; apply H5; right; exact Hq].
    destruct (H5 p (or_introl eq_refl)) as (B1 & B2 & B3). cbv zeta. unfold t_entry. cbn [mark_ok].
    split; [split; [split; [discriminate|reflexivity]|split; [apply Forall_nil|exact N0]]|]. cbn [cont_ok].
    split; [exact I2|]. split; [apply T; [reflexivity|discriminate|reflexivity|apply B1; cbn [In]; tauto]|].
    split; [exact I2|]. split; [apply L; [reflexivity|discriminate|apply B2]|].
    split; [exact I2|]. split; [apply L; [reflexivity|discriminate|apply B1; cbn [In]; tauto]|].
    split; [exact I2|]. split; [apply L; [reflexivity|discriminate|apply B1; cbn [In]; tauto]|].
    split; [exact I2|]. split.
    { split; [split; [discriminate|reflexivity]|]. split; [|apply N1].
      apply Forall_cons; [apply attr_quotable; [reflexivity|discriminate|exact B2]|apply Forall_nil]. }
    split; [exact I2|]. split.
    { apply A; [exact I2|apply chars_closed; reflexivity|apply B1; cbn [In]; tauto|apply B1; cbn [In]; tauto]. }
    split; [exact I2|]. split.
    { apply T; [reflexivity|discriminate|reflexivity|]. cbn [cont_ok]. split; [apply chars_closed; reflexivity|]. split; [exact B3|].
      apply chars_closed; reflexivity. }
    exact I1.
Qed.
Print Assumptions C74_wellformed.

(* ---------- examples ---------- *)
Definition ex_site : bytes := B "[global]
AUTHOR_NAME = Ana
AUTHOR_EMAIL = ana@x.org
SITE_TITLE = Site
SITE_TAGLINE = Words
BASE_DOMAIN = http://x.org
".
(* the template, parsed, rendered with the given variables and posts *)
Definition rendered (src : bytes) (sources : list (trie bytes)) (fuel : nat) (config : trie bytes) : option bytes :=
  match settings_parse src with
  | Ok (inl st) =>
      match atom_generate st with
      | Ok tmpl => match template_parse tmpl with
                   | Ok (inl ast) => match render no_dates [] ast sources true fuel [] config with
                                     | Ok (Some o, _) => Some o
                                     | _ => None
                                     end
                   | _ => None
                   end
      | _ => None
      end
  | _ => None
  end.
Definition ex_config (title : bytes) (more : list (bytes * bytes)) : trie bytes :=
  tr ([(B "AUTHOR_NAME", B "Ana"); (B "AUTHOR_EMAIL", B "ana@x.org"); (B "SITE_TITLE", title); (B "SITE_TAGLINE", B "Words");
       (B "BASE_DOMAIN", B "http://x.org"); (B "BASE_URL", B "/s"); (B "DATE_FIRST_FORMATTED", B "2024-05-06T00:00:00Z")] ++ more).
Definition ex_post : trie bytes :=
  tr [(B "FILENAME", B "one"); (B "TITLE", B "One"); (B "DATE_FORMATTED", B "2024-05-06T00:00:00Z"); (B "CONTENT", B "<p>a &amp; b</p>")].
(* the settings of the example satisfy the conditions of C72 *)
Example C72_settings : seen (ex_site ++ B "[settings]
blog_prefix = blog
") (fun st => map (trie_lookup (s_settings st)) [B "blog_prefix"; B "atom_prefix"; B "atom_ext"; B "post_prefix"; B "html_ext"])
  = Some [Some (B "blog"); Some (B "atom"); Some (B ".xml"); Some (B "post"); Some (B "/index.html")].
Proof. vm_compute. reflexivity. Qed.
Example C72_ex : rendered (ex_site ++ B "[settings]
blog_prefix = blog
") [ex_post] 100 (ex_config (B "Site") [(B "FILTER_TAG", B "cats")]) = Some (B "<?xml version=""1.0"" encoding=""utf-8""?>
<feed xmlns=""http://www.w3.org/2005/Atom"">
  <title type=""text"">Site - cats</title>
  <id>http://x.org/s/blog/atom/cats.xml</id>
  <updated>2024-05-06T00:00:00Z</updated>
  <link href=""http://x.org/s/"" />
  <link href=""http://x.org/s/blog/atom/cats.xml"" rel=""self"" />
  <author>
    <name>Ana</name>
    <email>ana@x.org</email>
  </author>
  <subtitle type=""text"">Words</subtitle>
  <entry>
    <title type=""text"">One</title>
    <id>http://x.org/s/blog/post/one/index.html</id>
    <updated>2024-05-06T00:00:00Z</updated>
    <published>2024-05-06T00:00:00Z</published>
    <link href=""http://x.org/s/blog/post/one/index.html"" />
    <author>
      <name>Ana</name>
      <email>ana@x.org</email>
    </author>
    <content type=""html""><![CDATA[<p>a &amp; b</p>]]></content>
  </entry>
</feed>
").
Proof. vm_compute. reflexivity. Qed.

(* ---------- what is not so ---------- *)
(* the feed does not name its own address: an empty blog_prefix gives two slashes *)
Theorem C72_address_refuted : exists src st file out,
  settings_parse src = Ok (inl st) /\
  generate_filename (Some (B "_build")) (trie_lookup (s_settings st) (B "blog_prefix")) (trie_lookup (s_settings st) (B "atom_prefix")) None
    (trie_lookup (s_settings st) (B "atom_ext")) = Some (B "_build" ++ file) /\
  rendered src [] 100 (ex_config (B "Site") []) = Some out /\
  ~ has (B "<link href=""http://x.org/s" ++ file ++ B """ rel=""self"" />") out.
Proof.
  pose (src := ex_site ++ B "[settings]
blog_prefix =
").
  destruct (@seen_some _ src (fun st => (generate_filename (Some (B "_build")) (trie_lookup (s_settings st) (B "blog_prefix"))
    (trie_lookup (s_settings st) (B "atom_prefix")) None (trie_lookup (s_settings st) (B "atom_ext"))))
    (Some (B "_build" ++ B "/atom.xml"))) as (st & E1 & E2); [vm_compute; reflexivity|].
  destruct (rendered src [] 100 (ex_config (B "Site") [])) as [out|] eqn:E; [|vm_compute in E; discriminate E].
  exists src, st, (B "/atom.xml"), out. split; [exact E1|]. split; [exact E2|]. split; [exact E|].
  apply found_has. vm_compute in E. injection E as <-. vm_compute. reflexivity.
Qed.
Print Assumptions C72_address_refuted.
(* blog_prefix is used as a format: a conversion reads an argument that is not there *)
Theorem C72_format_refuted : exists src st, settings_parse src = Ok (inl st) /\ atom_generate st = UB.
Proof.
  exists (ex_site ++ B "[settings]
blog_prefix = 100%s
"). apply seen_some. vm_compute. reflexivity.
Qed.
Print Assumptions C72_format_refuted.

Definition ex_source : bytes := B "TITLE: A
---
text
".
Definition loaded_name (f : bytes) : option bytes :=
  match source_parse_from_file (fun _ => Some ex_source) 100 trie_new f with
  | Ok (Loaded t) => Some (val no_dates [] trie_new (Some t) (B "FILENAME"))
  | _ => None
  end.
(* an ordinary post *)
Example C73_ex : loaded_name (B "/site/content/post/hello.txt") = Some (B "hello")
  /\ generate_filename (Some (B "content")) None (Some (B "post")) (Some (B "hello")) (Some (B ".txt")) = Some (B "content/post/hello.txt")
  /\ generate_filename (Some (B "_build")) None (Some (B "post")) (Some (B "hello")) (Some (B "/index.html")) = Some (B "_build/post/hello/index.html")
  /\ post_link None (Some (B "post")) (Some (B "/index.html")) (B "hello") = B "/post/hello/index.html".
Proof. vm_compute. repeat split; reflexivity. Qed.
(* the entry of a post in a directory of its own is not linked to its page *)
Theorem C73_refuted : exists slug f name file,
  generate_filename (Some (B "content")) None (Some (B "post")) (Some slug) (Some (B ".txt")) = Some f /\
  loaded_name (B "/site/" ++ f) = Some name /\
  generate_filename (Some (B "_build")) None (Some (B "post")) (Some slug) (Some (B "/index.html")) = Some (B "_build" ++ file) /\
  post_link None (Some (B "post")) (Some (B "/index.html")) name <> file.
Proof.
  exists (B "2024/hello"), (B "content/post/2024/hello.txt"), (B "hello"), (B "/post/2024/hello/index.html").
  split; [vm_compute; reflexivity|]. split; [vm_compute; reflexivity|]. split; [vm_compute; reflexivity|]. vm_compute. discriminate.
Qed.
Print Assumptions C73_refuted.

(* An ampersand in a document is in a CDATA section or after one. *)
Definition guarded (s : bytes) : Prop := forall a b, s = a ++ "&"%char :: b -> has (B "<![CDATA[") a.
Lemma has_r p a b : has p b -> has p (a ++ b). Proof. intros (x & y & ->). exists (a ++ x), y. rewrite <- app_assoc. reflexivity. Qed.
Lemma split_at (x y a b : bytes) c : x ++ y = a ++ c :: b ->
  (exists b', x = a ++ c :: b') \/ (exists a', a = x ++ a' /\ y = a' ++ c :: b).
Proof.
  revert a. induction x as [|d x IH]; intros a E.
  - right. exists a. split; [reflexivity|exact E].
  - destruct a as [|d' a]; cbn [app] in E; injection E as E1 E2; subst.
    + left. exists x. reflexivity.
    + destruct (IH a E2) as [(b' & ->)|(a' & -> & ->)]; [left; exists b'; reflexivity|right; exists a'; split; reflexivity].
Qed.
Lemma guarded_app x y : guarded x -> guarded y -> guarded (x ++ y).
Proof.
  intros Hx Hy a b E. destruct (split_at E) as [(b' & E')|(a' & -> & E')]; [exact (Hx _ _ E')|]. apply has_r. exact (Hy _ _ E').
Qed.
Lemma guarded_none x : ~ In "&"%char x -> guarded x.
Proof. intros H a b ->. exfalso. apply H, in_or_app. right. left. reflexivity. Qed.
Lemma name_no_amp n : xml_name n -> ~ In "&"%char n.
Proof. intros [_ H] X. rewrite forallb_forall in H. specialize (H _ X). discriminate. Qed.
Lemma attributes_no_amp l : Forall attr_ok l -> ~ In "&"%char (attributes l).
Proof.
  induction 1 as [|[n v] l (A1 & A2 & A3 & A4) _ IH]; [intros []|]. cbn [attributes flat_map fst snd]. intro H.
  apply in_app_or in H. destruct H as [H|H]; [|exact (IH H)]. unfold attribute in H. cbn [fst snd] in *.
  repeat (apply in_app_or in H; destruct H as [H|H]; [try (vm_compute in H; intuition discriminate)|]);
    try (vm_compute in H; intuition discriminate).
  exact (name_no_amp A1 H).
Qed.
Ltac lit := apply guarded_none; vm_compute; intuition discriminate.
Lemma content_guarded : forall s, content s -> guarded s
with markup_guarded : forall s, markup s -> guarded s.
Proof.
  - intros s [s' (_ & H & _)|s' m r (_ & H & _) Hm Hr].
    + apply guarded_none, H.
    + apply guarded_app; [apply guarded_none, H|]. apply guarded_app; [apply markup_guarded, Hm|apply content_guarded, Hr].
  - intros s [n l s' Hn Hl _ Hs|n l Hn Hl _|s' _].
    + apply guarded_app; [lit|]. apply guarded_app; [apply guarded_none, name_no_amp, Hn|].
      apply guarded_app; [apply guarded_none, attributes_no_amp, Hl|]. apply guarded_app; [lit|].
      apply guarded_app; [apply content_guarded, Hs|]. apply guarded_app; [lit|].
      apply guarded_app; [apply guarded_none, name_no_amp, Hn|lit].
    + apply guarded_app; [lit|]. apply guarded_app; [apply guarded_none, name_no_amp, Hn|].
      apply guarded_app; [apply guarded_none, attributes_no_amp, Hl|lit].
    + intros a b E. destruct (split_at E) as [(b' & E')|(a' & -> & _)].
      * exfalso. assert (X : In "&"%char (B "<![CDATA[")) by (rewrite E'; apply in_or_app; right; left; reflexivity).
        revert X. vm_compute. intuition discriminate.
      * exists [], a'. reflexivity.
Qed.
Lemma document_guarded d : document d -> guarded d.
Proof.
  intros [n l s Hn Hl _ Hs]. apply guarded_app; [lit|]. apply guarded_app; [lit|]. apply guarded_app; [lit|].
  apply guarded_app; [apply guarded_none, name_no_amp, Hn|]. apply guarded_app; [apply guarded_none, attributes_no_amp, Hl|].
  apply guarded_app; [lit|]. apply guarded_app; [apply content_guarded, Hs|]. apply guarded_app; [lit|].
  apply guarded_app; [apply guarded_none, name_no_amp, Hn|]. apply guarded_app; lit.
Qed.
(* The variables are copied as they are: with this title the feed is no XML. *)
Theorem C74_refuted : exists src config out,
  trie_lookup config (B "SITE_TITLE") = Some (B "AT&T") /\ rendered src [ex_post] 100 config = Some out /\ ~ document out.
Proof.
  exists ex_site, (ex_config (B "AT&T") []).
  destruct (rendered ex_site [ex_post] 100 (ex_config (B "AT&T") [])) as [out|] eqn:E; [|vm_compute in E; discriminate E].
  exists out. split; [vm_compute; reflexivity|]. split; [reflexivity|]. intro D. apply document_guarded in D.
  assert (X : exists b, out = B "<?xml version=""1.0"" encoding=""utf-8""?>
<feed xmlns=""http://www.w3.org/2005/Atom"">
  <title type=""text"">AT" ++ "&"%char :: b) by (vm_compute in E; injection E as <-; eexists; vm_compute; reflexivity).
  destruct X as (b & X). specialize (D _ _ X). revert D. apply found_has. vm_compute. reflexivity.
Qed.
Print Assumptions C74_refuted.
(* the example of C72 satisfies the conditions of C74 *)
Example C74_ex : let v := val no_dates [] (ex_config (B "Site") [(B "FILTER_TAG", B "cats")]) in
  forallb (fun n => negb (existsb (fun c => (c == "<"%char) || (c == "&"%char)) (v None n))
                    && negb (found (B "]]>") (v None n))) [B "SITE_TITLE"; B "SITE_TAGLINE"; B "AUTHOR_NAME"; B "BASE_DOMAIN"] = true
  /\ found (B "]]>") (v (Some ex_post) (B "CONTENT")) = false /\ v (Some ex_post) (B "CONTENT") <> [].
Proof. split; [vm_compute; reflexivity|]. split; [vm_compute; reflexivity|]. vm_compute. discriminate. Qed.
