(* blogc writes UTF-8 (C88). *)
From Verif Require Import Base Utils UtilsProofs Utf8 Utf8Proofs Utf8Text Trie Filelist FilelistSpec FilelistProofs Template Datetime Loader LoaderProofs Content
  BlockUtf8 SourceUtf8 Renderer RenderSpec RenderValues RenderUtf8 FileIO FileIOProofs FuncVars Main P_Common.
#[local] Open Scope nat_scope.
#[local] Arguments B : simpl never.

Lemma all_tall t : Forall utf8 (trie_free t) <-> tall t.
Proof. unfold tall. split; apply Forall_impl; intros s; apply utf8_ok. Qed.
Lemma suffix_none v : size_suffix v = None -> snd (split_size v) = None.
Proof.
  intro H. destruct v as [|c r]; [reflexivity|]. rewrite split_size_suffix by discriminate. rewrite H. reflexivity.
Qed.
Lemma lines_ok s : forall l, ok (l ++ s) -> Forall ok (lines_from l s).
Proof.
  induction s as [|c r IH]; intros l H; cbn [lines_from]; [rewrite app_nil_r in H; constructor; [exact H|constructor]|].
  destruct (eol c) eqn:E.
  - apply (ok_split (x := l)) in H; [|exact (@asc_of eol eq_refl c E)]. destruct H as [H1 H2]. constructor; [exact H1|]. apply IH. exact H2.
  - apply IH. rewrite <- app_assoc. exact H.
Qed.
Lemma entries_ok s : ok s -> Forall ok (entries s).
Proof.
  intro H. unfold entries. apply Forall_map. apply Forall_forall. intros l Hl. apply filter_In in Hl. destruct Hl as [Hl _].
  apply ok_strip, ok_cstr. pose proof (@lines_ok s [] H) as F. rewrite Forall_forall in F. exact (F l Hl).
Qed.

(* the command line *)
Definition oko (o : opts) : Prop := Forall ok (o_sources o) /\ Forall ok (o_entries o) /\ tall (o_config o).
Lemma define_ok v conf conf' : tall conf -> define_var v conf = Ok (Datatypes.inl conf') -> tall conf'.
Proof.
  intros Hc. unfold define_var. destruct (utf8_validate v) as [b| |] eqn:E; cbn [rbind]; try discriminate. destruct b; [|discriminate]. cbn [negb].
  assert (Hv : ok v) by (apply utf8_ok, validate_iff; exact E).
  pose proof (ok_split_str (c := "="%char) 2 eq_refl Hv) as F. destruct (str_split v "="%char 2) as [|k [|x [|? ?]]]; try discriminate.
  destruct (define_key 0 k); [|discriminate]. intro X; injection X as <-. apply tall_insert; [exact Hc|]. inversion F as [|? ? ? F2]; inversion F2; assumption.
Qed.
Lemma set_value_ok c v o o' : ok v -> oko o -> set_value c v o = Ok (Datatypes.inl o') -> oko o'.
Proof.
  intros Hv (H1 & H2 & H3). unfold set_value, oko.
  destruct (c == "e"%char). { intro X; injection X as <-. cbn. repeat match goal with |- _ /\ _ => apply conj end; auto. apply Forall_app. auto. }
  destruct (c == "t"%char). { intro X; injection X as <-. cbn. auto. }
  destruct (c == "o"%char). { intro X; injection X as <-. cbn. auto. }
  destruct (c == "p"%char). { intro X; injection X as <-. cbn. auto. }
  destruct (define_var v (o_config o)) as [[x|x]| |] eqn:E; cbn [rbind]; try discriminate. intro X; injection X as <-. cbn. apply define_ok in E; auto.
Qed.
Lemma set_flag_ok c o o' : oko o -> set_flag c o = Datatypes.inl o' -> oko o'.
Proof.
  intros H. unfold set_flag. repeat match goal with |- (if ?b then _ else _) = _ -> _ => destruct b end; try discriminate; intro X; injection X as <-; exact H.
Qed.
Lemma takes_asc c : takes_value c = true -> asc c = true.
Proof. intro E. exact (@asc_of takes_value eq_refl c E). Qed.
Lemma parse_ok args : forall o o', Forall ok args -> oko o -> parse_args args o = Ok (Datatypes.inl o') -> oko o'.
Proof.
  assert (G : forall n args o o', length args <= n -> Forall ok args -> oko o -> parse_args args o = Ok (Datatypes.inl o') -> oko o').
  2:{ intros o o' F I. exact (G (length args) args o o' (le_n _) F I). }
  clear args. induction n as [|n IH]; intros args o o' L F I.
  { destruct args; [|cbn in L; lia]. intro X; injection X as <-. exact I. }
  destruct args as [|a r]; [intro X; injection X as <-; exact I|]. inversion F as [|? ? Fa Fr]; subst. cbn in L.
  assert (P : parse_args r (Opts (o_debug o) (o_stdin o) (o_listing o) (o_template o) (o_output o) (o_print o) (o_sources o ++ [a]) (o_entries o) (o_config o)) = Ok (Datatypes.inl o') -> oko o').
  { apply IH; [lia|exact Fr|]. destruct I as (I1 & I2 & I3). unfold oko. cbn. repeat match goal with |- _ /\ _ => apply conj end; auto. apply Forall_app. auto. }
  assert (Q : forall a', a = "-"%char :: a' -> parse_args (("-"%char :: a') :: r) o = Ok (Datatypes.inl o') -> oko o').
  { intros a' ->. apply (@ok_split [] "-"%char) in Fa; [|reflexivity]; destruct Fa as [_ Fa]. cbn [parse_args]. set (c := match a' with c :: _ => c | [] => NUL end). destruct (takes_value c) eqn:Ec.
    - destruct a' as [|c' v']; [cbn in Ec; discriminate|]. cbn [tl]. apply (@ok_split [] c') in Fa; [|exact (takes_asc Ec)]; destruct Fa as [_ Fa]. destruct v' as [|v0 v'].
      + destruct r as [|v r']; [intro X; injection X as <-; exact I|]. inversion Fr as [|? ? Fv Fr']; subst. cbn in L.
        destruct (set_value c v o) as [[x|x]| |] eqn:E; cbn [rbind]; try discriminate. apply IH; [lia|exact Fr'|]. exact (@set_value_ok c v o x Fv I E).
      + destruct (set_value c (v0 :: v') o) as [[x|x]| |] eqn:E; cbn [rbind]; try discriminate. apply IH; [lia|exact Fr|]. exact (@set_value_ok c _ o x Fa I E).
    - destruct (set_flag c o) as [x|x] eqn:E; try discriminate. apply IH; [lia|exact Fr|]. exact (@set_flag_ok c o x I E). }
  destruct a as [|c a']; [exact P|]. destruct (c == "-"%char) eqn:Ec.
  - apply eqb_true in Ec. subst c. apply Q. reflexivity.
  - cbn [parse_args]. destruct c as [[] [] [] [] [] [] [] []]; try exact P; discriminate Ec.
Qed.

(* what a run shows *)
Definition shown (e : effect) (stored : bytes -> bytes -> bytes) : Prop :=
  match e with
  | EPrint t => utf8 t
  | EWrite f d => exists t, utf8 t /\ d = stored f t
  | _ => True
  end.

Section Out.
Variable contents : bytes -> option bytes.
Variable mktime : tm -> tm.
Variable strftime : bytes -> tm -> option bytes.
Variable funcs : list (bytes * (vars -> vars)).
Variable sfuel rfuel : nat.
Variable mkdir fopen : bytes -> bool.
Variable stored : bytes -> bytes -> bytes.
Variable version : bytes.
Notation blogc := (blogc_main contents mktime strftime funcs sfuel rfuel mkdir fopen stored version).
Notation parsed args := (parse_args args (Opts false false false None None None [] [] (trie_insert trie_new (B "BLOGC_VERSION") version))).

(* no variable that is printed asks for a number of bytes *)
Definition no_sizes (args : list bytes) : Prop :=
  forall o, parsed args = Ok (Datatypes.inl o) ->
    (forall p, o_print o = Some p -> size_suffix p = None) /\
    (forall f src l n v, o_template o = Some f -> contents f = Some src -> template_parse src = Ok (Datatypes.inl l) ->
       In n l -> n_type n = TVariable -> n_d0 n = Some v -> size_suffix v = None).

Lemma mkdirs_shown rest : forall done, Forall (fun e => shown e stored) (fst (mkdirs mkdir done rest)).
Proof.
  induction rest as [|c r IH]; intro done; cbn [mkdirs]; [constructor|]. destruct (_ && _); [apply IH|]. destruct done; [apply IH|].
  destruct (mkdir _); [|constructor; [exact I|constructor]]. specialize (IH ((a :: done) ++ [c])). destruct (mkdirs mkdir _ r) as [l b]. cbn [fst] in *. constructor; [exact I|exact IH].
Qed.
Lemma write_shown out o : ook o -> Forall (fun e => shown e stored) (fst (write_page mkdir fopen stored out o)).
Proof.
  intro H. assert (U : utf8 (match o with Some t => t | None => [] end)) by (apply utf8_ok; destruct o; [apply H; reflexivity|apply ok_nil]).
  unfold write_page. cbv zeta. set (text := match o with Some t => t | None => [] end) in *. clearbody text. destruct out as [f|]; [|constructor; [exact U|constructor]].
  destruct (beq f (B "-")); [constructor; [exact U|constructor]|]. pose proof (mkdirs_shown f []) as M. destruct (mkdirs mkdir [] f) as [l b]. cbn [fst] in M.
  destruct b; cbn [negb]; [destruct (fopen f)|]; cbn [fst]; apply Forall_app; (split; [exact M|]); repeat (constructor; try exact I). exists text. auto.
Qed.

Theorem C88_utf8_partial : forall args stdin effects rv,
  (forall f t, contents f = Some t -> utf8 t) -> (forall f x t, utf8 f -> strftime f x = Some t -> utf8 t) ->
  (forall f g, In f funcs -> Forall utf8 (trie_free g) -> Forall utf8 (trie_free (snd f g))) ->
  utf8 version -> Forall utf8 args -> utf8 stdin -> no_sizes args ->
  blogc args stdin = Ok (effects, rv) -> Forall (fun e => shown e stored) effects.
Proof.
  intros args stdin effects rv Hc Ht Hf Hver Ha Hi Hz. unfold no_sizes in Hz. unfold blogc_main.
  assert (Ct : forall f t, contents f = Some t -> ok t) by (intros f t E; apply utf8_ok; exact (Hc f t E)).
  assert (St : forall f x t, ok f -> strftime f x = Some t -> ok t) by (intros f x t E; rewrite <- utf8_ok in E |- *; exact (Ht f x t E)).
  assert (Ft : forall f g, In f funcs -> tall g -> tall (snd f g)) by (intros f g E; rewrite <- !all_tall; exact (Hf f g E)).
  assert (Cv : forall d f r, ok d -> ok f -> convert mktime strftime d f = Some r -> ok r).
  { intros d f r Hd F. unfold convert, convert_datetime. destruct (dt_parse d); [|discriminate]. destruct (strftime f _) eqn:E; [|discriminate].
    intro X; injection X as <-. exact (St _ _ _ F E). }
  destruct (parsed args) as [[o|s]| |] eqn:Ep; cbn [rbind]; try discriminate.
  2:{ intro X; injection X as <- _. destruct s; repeat constructor. }
  destruct (Hz o eq_refl) as [Z1 Z2]. apply parse_ok in Ep; cycle 1.
  { eapply Forall_impl; [|exact Ha]. intros x; apply utf8_ok. }
  { unfold oko. cbn. split; [constructor|split; [constructor|]]. apply tall_insert; [apply tall_new|apply utf8_ok; exact Hver]. }
  destruct Ep as (P1 & P2 & P3).
  assert (G : forall l r, Forall ok l -> compile contents mktime strftime funcs sfuel rfuel mkdir fopen stored o l = Ok r -> Forall (fun e => shown e stored) (fst r)).
  { intros l r Hl. assert (ER : forall n, Ok ([EError], n) = Ok r -> Forall (fun e => shown e stored) (fst r)) by (intros n X; injection X as <-; repeat constructor).
    unfold compile. destruct (_ && _); [apply ER|]. destruct (_ && _); [apply ER|].
    destruct (source_parse_from_files _ _ _ _ _ _) as [[[s config]|e]| |] eqn:Es; cbn [rbind]; try discriminate; [|apply ER].
    destruct (from_files_utf8 Ct St P3 Hl Es) as [S1 S2].
    match goal with |- rbind ?x _ = _ -> _ => destruct x as [[en|]| |] eqn:Ee; cbn [rbind]; try discriminate end; [|apply ER].
    assert (En : Forall onok en).
    { destruct (o_listing o); [|injection Ee as <-; constructor]. revert en Ee. generalize (o_entries o) P2. intro q. induction q as [|f q IH]; intros Fq en; cbn [load_entries]; [intro X; injection X as <-; constructor|].
      inversion Fq as [|? ? Ff Fq']; subst. destruct f as [|c0 f0].
      - destruct (load_entries _ _ _ q) as [[t|]| |] eqn:E; cbn [rbind]; try discriminate. intro X; injection X as <-. constructor; [exact I|]. apply IH; [exact Fq'|reflexivity].
      - destruct (source_parse_from_file _ _ _ _) as [[e|e]| |] eqn:E1; cbn [rbind]; try discriminate.
        destruct (load_entries _ _ _ q) as [[t|]| |] eqn:E; cbn [rbind]; try discriminate. intro X; injection X as <-. constructor; [|apply IH; [exact Fq'|reflexivity]].
        exact (from_file_ok Ct Ff E1). }
    destruct (o_print o) as [p|] eqn:Epr.
    - match goal with |- rbind ?x _ = _ -> _ => destruct x as [[v g]| |] eqn:Ev; cbn [rbind]; try discriminate end.
      apply (format_variable_ok Cv Ft) in Ev; [|exact S2| |exact ook_none].
      + destruct Ev as [_ Ev]. specialize (Ev (suffix_none (Z1 p eq_refl))). cbn [fst]. destruct v as [v|]; [|intro X; injection X as <-; repeat constructor].
        intro X; injection X as <-. constructor; [|constructor]. cbn [shown]. apply utf8_ok, ok_app; [apply Ev; reflexivity|reflexivity].
      + destruct (o_listing o); [exact I|]. destruct S1; [exact I|assumption].
    - destruct (o_template o) as [tf|] eqn:Et; [|apply ER]. destruct (contents tf) as [src|] eqn:Ec; [|apply ER].
      destruct (template_parse src) as [[nl|e]| |] eqn:Etp; cbn [rbind]; try discriminate; [|apply ER].
      match goal with |- rbind ?x _ = _ -> _ => destruct x as [[out g]| |] eqn:Ev; cbn [rbind]; try discriminate end.
      apply (render_utf8 Cv Ft) in Ev; [|exact (template_utf8 (Ct _ _ Ec) Etp)|exact S1| |exact En|exact S2].
      + destruct Ev as [Ev _]. cbn [fst]. pose proof (write_shown (o_output o) Ev) as W. destruct (write_page _ _ _ _ out) as [w n]. cbn [fst] in W.
        intro X; injection X as <-. cbn [fst]. apply Forall_app. split; [|exact W]. destruct (o_debug o); repeat constructor.
      + intros n v Hn Hty Hd. apply suffix_none. exact (Z2 tf src nl n v eq_refl Ec Etp Hn Hty Hd). }
  destruct (o_stdin o).
  - destruct (filelist_parse stdin) as [fl| |] eqn:Ef; cbn [rbind]; try discriminate.
    match goal with |- rbind ?x _ = _ -> _ => destruct x as [r| |] eqn:E; cbn [rbind]; try discriminate end.
    destruct (filelist_free fl); cbn [rbind]; try discriminate. intro X; injection X as ->. apply (G (o_sources o ++ map snd fl) (effects, rv)); [|exact E].
    apply Forall_app. split; [exact P1|]. destruct (filelist_free_spec stdin) as (l0 & L1 & L2 & _). rewrite L1 in Ef. injection Ef as <-. rewrite L2.
    apply entries_ok, utf8_ok. exact Hi.
  - intro E. exact (G _ _ P1 E).
Qed.
End Out.
Print Assumptions C88_utf8_partial.

(* the same when the files are read by bc_file_get_contents and the functions of
   funcvars.c answer in UTF-8 *)
Definition read_from (disk : bytes -> option (bytes * list nat * bool)) (fuel : nat) (f : bytes) : option bytes :=
  match disk f with
  | Some (c, sz, bad) => match file_get_contents fuel true (opened c sz bad) with Ok x => x | _ => None end
  | None => None
  end.
Definition utf8_os (o : os) : Prop :=
  (forall t m, os_usage o = Some (t, m) -> utf8 t /\ utf8 m) /\ (forall h, os_hostname o = Some h -> utf8 h) /\
  (forall d, os_datetime o = Some d -> utf8 d) /\ (forall u, os_username o = Some u -> utf8 u).
Lemma read_utf8 disk fuel f t : read_from disk fuel f = Some t -> utf8 t.
Proof.
  unfold read_from. destruct (disk f) as [[[c sz] bad]|]; [|discriminate]. unfold file_get_contents.
  destruct (read_loop _ _ _ _ _) as [s| |]; cbn [rbind]; try discriminate. destruct (utf8_validate s) as [b| |] eqn:E; cbn [rbind]; try discriminate.
  destruct b; [|discriminate]. intro X; injection X as <-. apply validate_iff. exact E.
Qed.
Lemma os_utf8 o : utf8_os o -> forall f g, In f (os_funcs o) -> Forall utf8 (trie_free g) -> Forall utf8 (trie_free (snd f g)).
Proof.
  intros (H1 & H2 & H3 & H4) f g Hi Hg. rewrite all_tall in *.
  assert (P : forall n v, (forall x, v = Some x -> utf8 x) -> tall (put n v g)).
  { intros n [x|] Hx; [|exact Hg]. apply tall_insert; [exact Hg|]. apply utf8_ok, Hx. reflexivity. }
  assert (R : tall (rusage_inject o g)).
  { unfold rusage_inject. destruct (os_usage o) as [[t m]|] eqn:E; [|exact Hg]. destruct (H1 _ _ eq_refl) as [Ut Um].
    apply tall_insert; [apply tall_insert; [exact Hg|]|]; apply utf8_ok; assumption. }
  cbn [os_funcs In] in Hi. destruct Hi as [<-|[<-|[<-|[<-|[<-|[<-|[]]]]]]]; cbn [snd]; try exact R; apply P; auto.
  intros x E. destruct (os_docker o); [|discriminate]. injection E as <-. apply utf8_ok. reflexivity.
Qed.
Theorem C88_run_partial : forall disk fuel o mktime strftime sfuel rfuel mkdir fopen stored version args stdin effects rv,
  (forall f x t, utf8 f -> strftime f x = Some t -> utf8 t) -> utf8_os o -> utf8 version -> Forall utf8 args -> utf8 stdin ->
  no_sizes (read_from disk fuel) version args ->
  blogc_main (read_from disk fuel) mktime strftime (os_funcs o) sfuel rfuel mkdir fopen stored version args stdin = Ok (effects, rv) ->
  Forall (fun e => shown e stored) effects.
Proof.
  intros disk fuel o mktime strftime sfuel rfuel mkdir fopen stored version args stdin effects rv Hs Ho Hver Ha Hi Hz.
  apply C88_utf8_partial; try assumption; [apply read_utf8|apply os_utf8; exact Ho].
Qed.
Print Assumptions C88_run_partial.

(* a post with accents, its page *)
Definition ex_disk (template : bytes) (f : bytes) : option (bytes * list nat * bool) :=
  if beq f (B "t") then Some (template, [1; 3], false)
  else if beq f (B "é.txt") then Some (B "TITLE: Été à Évora
TAGS: café né
---
# Où *ça*?

«é» & [à](ü)
", [7], false)
  else None.
Definition ex_run (template : bytes) (args : list bytes) : res (list effect * nat) :=
  blogc_main (read_from (ex_disk template) 1000) (fun t => t) (fun f _ => Some f) (os_funcs (Os None (Some (B "hôte")) None None false)) 1000 1000
    (fun _ => true) (fun _ => true) (fun _ x => x) (B "1.0") args [].
Definition ex_good : bytes := B "{% block entry %}{{ TITLE }} {% foreach TAGS %}<{{ FOREACH_ITEM }}>{% endforeach %} ñ{{ A }} {{ FILENAME }} {{ BLOGC_SYSINFO_HOSTNAME }}
{{ CONTENT }}{% endblock %}".
Example C88_ex : ex_run ex_good [B "-DA=þ"; B "-tt"; B "-o"; B "ö"; B "é.txt"]
  = Ok ([EOpen (B "ö"); EWrite (B "ö") (B "Été à Évora <café><né> ñþ é hôte
<h1 id=""o------a--"">Où <em>ça</em>?</h1>
<p>«é» &amp; <a href=""ü"">à</a></p>
")], 0).
Proof. vm_compute. reflexivity. Qed.
Example C88_ex_met : no_sizes (read_from (ex_disk ex_good) 1000) (B "1.0") [B "-DA=þ"; B "-tt"; B "-o"; B "ö"; B "é.txt"].
Proof.
  intros o E. vm_compute in E. injection E as <-. split; [discriminate|]. cbn [o_template]. intros f src l n v X; injection X as <-. intro Es. vm_compute in Es. injection Es as <-.
  intro El. vm_compute in El. injection El as <-. cbn [In]. intros Hn Ty Ed.
  repeat destruct Hn as [<-|Hn]; try discriminate Ty; try (injection Ed as <-; vm_compute; reflexivity). destruct Hn.
Qed.

(* a number of bytes cuts a character in two *)
Theorem C88_refuted : exists template args text, utf8 template /\ Forall utf8 args /\
  ex_run template args = Ok ([EPrint text], 0) /\ ~ utf8 text.
Proof.
  exists (B "{% block entry %}{{ TITLE_1 }}{% endblock %}"), [B "-tt"; B "é.txt"], ["195"%char].
  split; [apply utf8_ok; reflexivity|]. split; [repeat constructor; apply utf8_ok; reflexivity|]. split; [vm_compute; reflexivity|].
  rewrite utf8_ok. discriminate.
Qed.
Print Assumptions C88_refuted.
