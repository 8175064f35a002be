(* C64: what a run of blogc touches, and when. *)
From Verif Require Import Base Utils Utf8 Utf8Proofs Trie TrieProofs ShSpec Settings BlogcCmd BlogcCmdSpec Filelist Template Datetime Source Loader Renderer RenderSpec P_Render Main MainSpec P_Settings P_BlogcCmd P_Main.
#[local] Open Scope nat_scope.
#[local] Arguments B : simpl never.

Section Run.
Variable contents : bytes -> option bytes.
Variable mktime : tm -> tm.
Variable strftime : bytes -> tm -> option bytes.
Variable funcs : list (bytes * (vars -> vars)).
Variable sfuel rfuel : nat.
Variable mkdir fopen : bytes -> bool.
Variable stored : bytes -> bytes -> bytes.
Variable version : bytes.
Notation blogc := (blogc_main contents mktime strftime funcs sfuel rfuel mkdir fopen stored version).
Notation run := (compile contents mktime strftime funcs sfuel rfuel mkdir fopen stored).
Notation from_file := (source_parse_from_file contents sfuel).

(* a source file that could be read and is one *)
Definition source_fine (f : bytes) : Prop :=
  exists s depth t, contents f = Some s /\ source_parse sfuel s depth = Ok (Good t).
(* everything the options [o] ask blogc to read is there and parses *)
Record inputs_fine (o : opts) (sources : list bytes) : Prop := IF
  { if_sources : Forall source_fine sources;
    if_entries : o_listing o = true -> Forall (fun f => f <> [] -> source_fine f) (o_entries o);
    if_template : exists t s l, o_template o = Some t /\ contents t = Some s /\ template_parse s = Ok (inl l) }.
(* the sources of a run: the arguments, then what stands in the list on stdin *)
Definition sources_of (o : opts) (stdin : bytes) (sources : list bytes) : Prop :=
  if o_stdin o then exists l, filelist_parse stdin = Ok l /\ sources = o_sources o ++ map snd l else sources = o_sources o.

Lemma from_file_fine conf f t : from_file conf f = Ok (Loaded t) -> source_fine f.
Proof.
  unfold source_parse_from_file. destruct (contents f) as [s|] eqn:Ef; [|discriminate]. intro H.
  destruct (source_parse sfuel s _) as [[t'|e]| |] eqn:Es in H; cbn [rbind] in H; try discriminate. exists s. do 2 eexists.
  split; [exact Ef|exact Es].
Qed.
Lemma load_fine conf sort l : forall acc n r, load_go contents mktime strftime sfuel conf sort l acc n = Ok (Loaded r) -> Forall source_fine l.
Proof.
  induction l as [|f l IH]; intros acc n r H; [constructor|]. cbn [load_go] in H.
  destruct (from_file conf f) as [[s|e]| |] eqn:Ef; cbn [rbind] in H; try discriminate. constructor; [eapply from_file_fine; exact Ef|].
  destruct sort; [|eapply IH; exact H]. destruct (trie_lookup s (B "DATE")); [|discriminate].
  destruct (convert_datetime _ _ _ _); [|discriminate]. eapply IH; exact H.
Qed.
Lemma files_fine conf l r : source_parse_from_files contents mktime strftime sfuel conf l = Ok (Loaded r) -> Forall source_fine l.
Proof.
  unfold source_parse_from_files, gather. intro H.
  destruct (load_go _ _ _ _ _ _ _ _ _) as [[x|e]| |] eqn:E; cbn [rbind] in H; try discriminate. eapply load_fine; exact E.
Qed.
Lemma entries_fine conf l : forall r, load_entries contents sfuel conf l = Ok (Some r) -> Forall (fun f => f <> [] -> source_fine f) l.
Proof.
  induction l as [|f l IH]; intros r H; [constructor|]. destruct f as [|c f].
  - cbn [load_entries] in H. destruct (load_entries _ _ _ l) as [[x|]| |] eqn:E; cbn [rbind] in H; try discriminate.
    constructor; [congruence|]. eapply IH; reflexivity.
  - cbn [load_entries] in H. destruct (from_file conf (c :: f)) as [[t|e]| |] eqn:Ef; cbn [rbind] in H; try discriminate.
    destruct (load_entries _ _ _ l) as [[x|]| |] eqn:E; cbn [rbind] in H; try discriminate.
    constructor; [intros _; eapply from_file_fine; exact Ef|]. eapply IH; reflexivity.
Qed.

(* the posts blogc adds to a listing *)
Definition entry_of (conf : trie bytes) (f : bytes) (e : option vars) : Prop :=
  (f = [] /\ e = None) \/ (f <> [] /\ exists t, from_file conf f = Ok (Loaded t) /\ e = Some t).
Lemma entries_of conf l : forall r, load_entries contents sfuel conf l = Ok (Some r) -> Forall2 (entry_of conf) l r.
Proof.
  induction l as [|f l IH]; intros r H; [inv H; constructor|]. destruct f as [|c f].
  - cbn [load_entries] in H. destruct (load_entries _ _ _ l) as [[x|]| |] eqn:E; cbn [rbind] in H; try discriminate. inv H.
    constructor; [left; auto|]. apply IH. reflexivity.
  - cbn [load_entries] in H. destruct (from_file conf (c :: f)) as [[t|e]| |] eqn:Ef; cbn [rbind] in H; try discriminate.
    destruct (load_entries _ _ _ l) as [[x|]| |] eqn:E; cbn [rbind] in H; try discriminate. inv H.
    constructor; [right; split; [discriminate|]; eauto|]. apply IH. reflexivity.
Qed.

(* [page] is what the template means for the posts loaded, with the variables of the
   listing and the extra entries, when the template is properly nested (C23) *)
Definition page_of (o : opts) (sources : list bytes) (page : bytes) : Prop :=
  exists posts config entries t s ast,
    source_parse_from_files contents mktime strftime sfuel (o_config o) sources = Ok (Loaded (posts, config))
    /\ (if o_listing o then Forall2 (entry_of config) (o_entries o) entries else entries = [])
    /\ o_template o = Some t /\ contents t = Some s /\ template_parse s = Ok (inl ast)
    /\ (ast = [] -> page = [])
    /\ forall prog, ast = flatten prog -> fits false false prog -> ast <> [] ->
         page = fst (output (convert mktime strftime) (funcvars_eval funcs) posts (o_listing o) true prog entries config).
Lemma render_page conv ast posts listing entries config fuel out prog :
  render conv funcs ast posts listing fuel entries config = Ok out -> ast = flatten prog -> fits false false prog -> ast <> [] ->
  fst out = Some (fst (output conv (funcvars_eval funcs) posts listing true prog entries config)).
Proof.
  intros H -> Hf Hn. destruct (@C23_recursive_reading conv funcs posts listing prog entries config Hf Hn) as (f & E).
  pose proof (@C22_render_fuel conv funcs (flatten prog) posts listing entries config fuel (Nat.max fuel f) (Nat.le_max_l _ _)) as A.
  pose proof (@C22_render_fuel conv funcs (flatten prog) posts listing entries config f (Nat.max fuel f) (Nat.le_max_r _ _)) as A'.
  rewrite H in A. rewrite E in A'. specialize (A ltac:(discriminate)). specialize (A' ltac:(discriminate)). rewrite A in A'. injection A' as ->. reflexivity.
Qed.

(* the path an effect changes *)
Definition touched (e : effect) : option bytes :=
  match e with EMkdir p | EOpen p | EWrite p _ => Some p | _ => None end.
Definition opened (e : effect) : bool := match e with EOpen _ | EWrite _ _ | EPrint _ => true | _ => false end.

Lemma mkdirs_spec rest : forall done l ok, mkdirs mkdir done rest = (l, ok) ->
  Forall (fun e => exists d, e = EMkdir d /\ parent d (done ++ rest)) l.
Proof.
  induction rest as [|c r IH]; intros done l ok H; cbn [mkdirs] in H; [inv H; constructor|].
  destruct (negb (c == "/"%char) && negb (c == BSL)) eqn:Ec.
  { specialize (IH _ _ _ H). rewrite <- app_assoc in IH. exact IH. }
  assert (P : done <> [] -> parent done (done ++ c :: r)).
  { intro Hd. split; [exact Hd|]. exists c, r. split; [reflexivity|]. apply andb_false_iff in Ec. destruct Ec as [Ec|Ec]; apply negb_false_iff in Ec.
    - left. apply eqb_true. exact Ec.
    - right. apply eqb_true. exact Ec. }
  destruct done as [|d0 d].
  { specialize (IH _ _ _ H). exact IH. }
  destruct (mkdir (d0 :: d)); [|inv H; constructor; [|constructor]; eexists; split; [reflexivity|apply P; discriminate]].
  destruct (mkdirs mkdir ((d0 :: d) ++ [c]) r) as [l' ok'] eqn:E. inv H. constructor; [eexists; split; [reflexivity|apply P; discriminate]|].
  specialize (IH _ _ _ E). rewrite <- app_assoc in IH. exact IH.
Qed.

(* what writing a page does *)
Inductive written_to (output : option bytes) (page : bytes) : list effect -> nat -> Prop :=
| WPrint : output = None \/ output = Some (B "-") -> written_to output page [EPrint page] 0
| WFile f l : output = Some f -> f <> B "-" -> Forall (fun e => exists d, e = EMkdir d /\ parent d f) l ->
    written_to output page (l ++ [EOpen f; EWrite f (stored f page)]) 0
| WFail f l n : output = Some f -> f <> B "-" -> Forall (fun e => exists d, e = EMkdir d /\ parent d f) l -> n <> 0 ->
    written_to output page (l ++ [EError]) n.
Lemma write_page_spec output out l n : write_page mkdir fopen stored output out = (l, n) ->
  written_to output (match out with Some t => t | None => [] end) l n.
Proof.
  unfold write_page. destruct output as [f|]; [|intro H; inv H; constructor; auto].
  destruct (beq f (B "-")) eqn:Ef; [intro H; inv H; constructor; right; f_equal; apply beq_eq; exact Ef|]. apply beq_neq in Ef.
  destruct (mkdirs mkdir [] f) as [d ok] eqn:Ed. pose proof (mkdirs_spec Ed) as P. cbn [app] in P.
  destruct ok; cbn [negb].
  - destruct (fopen f); intro H; inv H; [eapply WFile; eauto|eapply WFail; eauto].
  - intro H; inv H. eapply WFail; eauto.
Qed.

(* the ways a run can end *)
Inductive outcome (o : opts) (sources : list bytes) : list effect -> nat -> Prop :=
| OError n : n <> 0 -> outcome o sources [EError] n
| OPrinted p text : o_print o = Some p -> outcome o sources [EPrint text] 0
| OPage page l n : o_print o = None -> inputs_fine o sources -> page_of o sources page -> written_to (o_output o) page l n ->
    outcome o sources ((if o_debug o then [EDebug] else []) ++ l) n.
Lemma compile_outcome o sources l n : run o sources = Ok (l, n) -> outcome o sources l n.
Proof.
  unfold compile. destruct (negb (o_listing o) && Nat.eqb (length sources) 0); [intro H; inv H; constructor; lia|].
  destruct (negb (o_listing o) && Nat.ltb 1 (length sources)); [intro H; inv H; constructor; lia|].
  destruct (source_parse_from_files _ _ _ _ _ _) as [[[s config]|e]| |] eqn:Es; cbn [rbind]; intro H; try discriminate; [|inv H; constructor; lia].
  pose proof (files_fine Es) as Fs.
  destruct (if o_listing o then load_entries contents sfuel config (o_entries o) else Ok (Some [])) as [[entries|]| |] eqn:Ee;
    cbn [rbind] in H; try discriminate; [|inv H; constructor; lia].
  assert (Fe : o_listing o = true -> Forall (fun f => f <> [] -> source_fine f) (o_entries o)).
  { intro El. rewrite El in Ee. eapply entries_fine; exact Ee. }
  destruct (o_print o) as [p|] eqn:Ep.
  - destruct (format_variable _ _ _ _ _ _ _) as [[[v|] x]| |]; cbn [rbind fst] in H; try discriminate; inv H; [econstructor; exact Ep|constructor; lia].
  - destruct (o_template o) as [t|] eqn:Et; [|inv H; constructor; lia].
    destruct (contents t) as [src|] eqn:Ec; [|inv H; constructor; lia].
    destruct (template_parse src) as [[tl|te]| |] eqn:El; cbn [rbind] in H; try discriminate; [|inv H; constructor; lia].
    destruct (render _ _ _ _ _ _ _ _) as [out| |] eqn:Er; cbn [rbind] in H; try discriminate.
    destruct (write_page mkdir fopen stored (o_output o) (fst out)) as [w rv] eqn:Ew. inv H.
    eapply OPage; [exact Ep| | |apply write_page_spec; exact Ew]; [constructor; [exact Fs|exact Fe|]; exists t, src, tl; auto|].
    exists s, config, entries, t, src, tl. split; [exact Es|]. split.
    { destruct (o_listing o); [apply entries_of; exact Ee|inv Ee; reflexivity]. }
    split; [exact Et|]. split; [exact Ec|]. split; [exact El|]. split.
    + intros ->. unfold render in Er. inv Er. reflexivity.
    + intros prog E1 E2 E3. rewrite (render_page Er E1 E2 E3). reflexivity.
Qed.

Lemma main_outcome args stdin l n : blogc args stdin = Ok (l, n) ->
  (exists e, l = [e] /\ touched e = None /\ opened e = false)
  \/ exists o sources, parse_args args (no_opts (trie_insert trie_new (B "BLOGC_VERSION") version)) = Ok (inl o)
       /\ sources_of o stdin sources /\ outcome o sources l n.
Proof.
  unfold blogc_main. fold (no_opts (trie_insert trie_new (B "BLOGC_VERSION") version)).
  destruct (parse_args args _) as [[o|s]| |] eqn:Ea; cbn [rbind]; intro H; try discriminate.
  - right. exists o. destruct (o_stdin o) eqn:Es.
    + destruct (filelist_parse stdin) as [fl| |] eqn:Ef; cbn [rbind] in H; try discriminate.
      destruct (run o (o_sources o ++ map snd fl)) as [[l' n']| |] eqn:Er; cbn [rbind] in H; try discriminate.
      destruct (filelist_free fl); cbn [rbind] in H; try discriminate. inv H.
      eexists. split; [reflexivity|]. split; [|apply compile_outcome; exact Er]. unfold sources_of. rewrite Es. eauto.
    + eexists. split; [reflexivity|]. split; [|apply compile_outcome; exact H]. unfold sources_of. rewrite Es. reflexivity.
  - left. inv H. destruct s; eexists; split; try reflexivity; split; reflexivity.
Qed.

(* C64: whatever is created, emptied or written lies at the output path or is a
   directory on the way to it, and it is only touched after every source, every
   listing entry and the template were read and found correct. *)
Theorem C64_touched : forall args stdin l n e p,
  blogc args stdin = Ok (l, n) -> In e l -> touched e = Some p ->
  exists o f sources, parse_args args (no_opts (trie_insert trie_new (B "BLOGC_VERSION") version)) = Ok (inl o)
    /\ o_output o = Some f /\ f <> B "-" /\ o_print o = None
    /\ (p = f \/ (e = EMkdir p /\ parent p f)) /\ sources_of o stdin sources /\ inputs_fine o sources.
Proof.
  intros args stdin l n e p H Hi Ht. destruct (main_outcome H) as [(x & -> & Hx & _)|(o & sources & Ea & Hs & Ho)].
  { destruct Hi as [<-|[]]. congruence. }
  destruct Ho as [n Hn|q text Hq|page w n Hp Hin Hpg Hw].
  - destruct Hi as [<-|[]]. discriminate.
  - destruct Hi as [<-|[]]. discriminate.
  - apply in_app_iff in Hi. destruct Hi as [Hi|Hi]; [destruct (o_debug o); [destruct Hi as [<-|[]]; discriminate|destruct Hi]|].
    destruct Hw as [Hw|f w Hf Hf' Hd|f w n Hf Hf' Hd Hn].
    + destruct Hi as [<-|[]]. discriminate.
    + exists o, f, sources. split; [exact Ea|]. split; [exact Hf|]. split; [exact Hf'|]. split; [exact Hp|]. split; [|split; assumption].
      apply in_app_iff in Hi. destruct Hi as [Hi|[<-|[<-|[]]]]; [|left; inv Ht; reflexivity|left; inv Ht; reflexivity].
      right. rewrite Forall_forall in Hd. destruct (Hd _ Hi) as (d & -> & Hpd). inv Ht. auto.
    + exists o, f, sources. split; [exact Ea|]. split; [exact Hf|]. split; [exact Hf'|]. split; [exact Hp|]. split; [|split; assumption].
      apply in_app_iff in Hi. destruct Hi as [Hi|[<-|[]]]; [|discriminate].
      right. rewrite Forall_forall in Hd. destruct (Hd _ Hi) as (d & -> & Hpd). inv Ht. auto.
Qed.

(* C64: a run that reports failure neither opened the output file nor printed anything *)
Theorem C64_failed : forall args stdin l n e,
  blogc args stdin = Ok (l, n) -> n <> 0 -> In e l -> opened e = false.
Proof.
  intros args stdin l n e H Hn Hi. destruct (main_outcome H) as [(x & -> & _ & Hx)|(o & sources & Ea & Hs & Ho)].
  { destruct Hi as [<-|[]]. exact Hx. }
  destruct Ho as [n Hn'|q text Hq|page w n Hp Hin Hpg Hw]; [destruct Hi as [<-|[]]; reflexivity|congruence|].
  apply in_app_iff in Hi. destruct Hi as [Hi|Hi]; [destruct (o_debug o); [destruct Hi as [<-|[]]; reflexivity|destruct Hi]|].
  destruct Hw as [Hw|f w Hf Hf' Hd|f w n Hf Hf' Hd Hn']; [congruence|congruence|].
  apply in_app_iff in Hi. destruct Hi as [Hi|[<-|[]]]; [|reflexivity].
  rewrite Forall_forall in Hd. destruct (Hd _ Hi) as (d & -> & _). reflexivity.
Qed.

(* C64: a run that reports success and was asked for a page ends by printing it, or by
   opening the output file and handing it the page, the page being what the template
   means; nothing is printed before that. *)
Theorem C64_succeeded : forall args stdin l o,
  parse_args args (no_opts (trie_insert trie_new (B "BLOGC_VERSION") version)) = Ok (inl o) -> o_print o = None ->
  blogc args stdin = Ok (l, 0) ->
  exists front page sources, Forall (fun e => opened e = false) front /\ sources_of o stdin sources /\ inputs_fine o sources /\ page_of o sources page /\
    match o_output o with
    | Some f => if beq f (B "-") then l = front ++ [EPrint page] else l = front ++ [EOpen f; EWrite f (stored f page)]
    | None => l = front ++ [EPrint page]
    end.
Proof.
  intros args stdin l o Ea Hp H. destruct (main_outcome H) as [(x & -> & Hx1 & Hx2)|(o' & sources & Ea' & Hs & Ho)].
  - exfalso. unfold blogc_main in H. fold (no_opts (trie_insert trie_new (B "BLOGC_VERSION") version)) in H. rewrite Ea in H. cbn [rbind] in H.
    assert (X : exists sources, run o sources = Ok ([x], 0)).
    { destruct (o_stdin o); [|eauto]. destruct (filelist_parse stdin) as [fl| |]; cbn [rbind] in H; try discriminate.
      destruct (run o (o_sources o ++ map snd fl)) as [r| |] eqn:Er; cbn [rbind] in H; try discriminate.
      destruct (filelist_free fl); cbn [rbind] in H; try discriminate. inv H. eauto. }
    destruct X as (ss & X). apply compile_outcome in X. inversion X as [n Hn|q text Hq E1|page w n Hp' Hin Hpg Hw E1]; [congruence|subst; discriminate|].
    inversion Hw as [Hw' E2 E3|f w' Hf Hf' Hd E2 E3|f w' n' Hf Hf' Hd Hn E2 E3]; subst w; [|
      |congruence].
    + destruct (o_debug o); cbn [app] in E1; [discriminate|]. injection E1 as <-. discriminate.
    + destruct (o_debug o); cbn [app] in E1; destruct w' as [|a [|b w']]; discriminate E1.
  - assert (o' = o) by congruence. subst o'. inversion Ho as [n Hn|q text Hq E1|page w n _ Hin Hpg Hw E1]; [congruence|congruence|]. subst n.
    assert (D : Forall (fun e => opened e = false) (if o_debug o then [EDebug] else [])) by (destruct (o_debug o); repeat constructor).
    inversion Hw as [Hw' E2 E3|f w' Hf Hf' Hd E2 E3|f w' n' Hf Hf' Hd Hn E2 E3]; subst w; [| |congruence].
    + exists (if o_debug o then [EDebug] else []), page, sources. split; [exact D|]. split; [exact Hs|]. split; [exact Hin|]. split; [exact Hpg|].
      destruct Hw' as [-> | ->]; [reflexivity|rewrite beq_refl; reflexivity].
    + exists ((if o_debug o then [EDebug] else []) ++ w'), page, sources. split.
      * apply Forall_app. split; [exact D|]. eapply Forall_impl; [|exact Hd]. intros e (d & -> & _). reflexivity.
      * split; [exact Hs|]. split; [exact Hin|]. split; [exact Hpg|]. rewrite Hf. replace (beq f (B "-")) with false by (symmetry; apply beq_neq; exact Hf').
        rewrite <- app_assoc. reflexivity.
Qed.
End Run.
Print Assumptions C64_touched.
Print Assumptions C64_failed.
Print Assumptions C64_succeeded.

(* ---- examples and limits ---- *)
Definition ex_contents (f : bytes) : option bytes :=
  if beq f (B "/r/a b.txt") then Some (B "TITLE: it
DATE: 2020-01-02
-----
x
")
  else if beq f (B "/r/#c.txt") then Some (B "TITLE: is
DATE: 2021-01-02
-----
y
")
  else if beq f (B "e.txt") then Some (B "TITLE: extra
-----
z
")
  else if beq f (B "t.tmpl") then Some (B "{{ SITE_TITLE }}: {% block listing_entry %}<{{ TITLE }}>{% endblock %}{% block listing %}{{ TITLE }},{{ V_1 }};{% endblock %}")
  else None.
Definition ex_blogc (stored : bytes -> bytes -> bytes) : list bytes -> bytes -> res (list effect * nat) :=
  blogc_main ex_contents (fun t => t) (fun _ _ => Some (B "0")) [] 1000 1000 (fun _ => true) (fun _ => true) stored (B "1.0").
Example C64_example :
  ex_blogc (fun _ x => x) [B "-l"; B "-D"; B "SITE_TITLE=T"; B "-o"; B "o/x/y.html"; B "-i"; B "-tt.tmpl"; B "-e"; B "e.txt"; B "/r/a b.txt"] (B "# one
/r/#c.txt
")
  = Ok ([EMkdir (B "o"); EMkdir (B "o/x"); EOpen (B "o/x/y.html"); EWrite (B "o/x/y.html") (B "T: <extra>it,;is,;")], 0).
Proof. vm_compute. reflexivity. Qed.
(* a missing source: nothing is touched *)
Example C64_missing : ex_blogc (fun _ x => x) [B "-t"; B "t.tmpl"; B "-o"; B "o/x"; B "nowhere"] [] = Ok ([EError], 1).
Proof. vm_compute. reflexivity. Qed.
(* what fprintf and fclose return is not looked at: a page of which nothing reached the disk is a success *)
Theorem C64_stored_refuted : exists stored args f page,
  ex_blogc stored args [] = Ok ([EOpen f; EWrite f []], 0) /\ ex_blogc (fun _ x => x) args [] = Ok ([EOpen f; EWrite f page], 0) /\ page <> [].
Proof.
  exists (fun _ _ => []), [B "-l"; B "-t"; B "t.tmpl"; B "-o"; B "y"]. do 2 eexists. split; [vm_compute; reflexivity|]. split; [vm_compute; reflexivity|discriminate].
Qed.
Print Assumptions C64_stored_refuted.
(* asking for the variable with the empty name reads before the start of the string *)
Theorem C64_empty_variable_refuted : ex_blogc (fun _ x => x) [B "-p"; B ""; B "/r/a b.txt"] [] = UB.
Proof. vm_compute. reflexivity. Qed.
Print Assumptions C64_empty_variable_refuted.

(* C65, run: the words the shell makes of the command blogc-make builds, given to blogc with the
   text blogc-make writes to it *)
Definition after (w : bytes) (l : list bytes) : list bytes := match l with x :: y :: r => if beq x w then y :: r else if beq y w then r else l | _ => l end.
Example C65_example : seen ex_full (fun st =>
    let c := Ectx (B "blogc") (B "blogc-runserver") st (B "/o") true in
    let (cmd, input) := exec_blogc c (Some (trie_insert trie_new (B "FILTER_SORT") (B "1"))) None true (Some (B "e.txt")) (B "t.tmpl") (B "o; x/it's.html")
                          [B "/r/a b.txt"; B "/r/#c.txt"] false in
    match sh_words cmd with Some w => ex_blogc (fun _ x => x) (after (B "blogc") w) input | None => UB end)
  = Some (Ok ([EMkdir (B "o; x"); EOpen (B "o; x/it's.html");
               EWrite (B "o; x/it's.html") (B "T: <extra>it,it's $(a) ""b"";is,it's $(a) ""b"";")], 0)).
Proof. vm_compute. reflexivity. Qed.
(* the blogcfile meets the hypotheses of the theorem *)
Definition valid (v : bytes) : bool := match utf8_validate v with Ok b => b | _ => false end.
Lemma valid_utf8 v : valid v = true -> utf8 v.
Proof. unfold valid. destruct (validate_exact v) as (b & -> & H). apply H. Qed.
Example C65_hypotheses : exists st, settings_parse ex_full = Ok (inl st) /\ utf8 ex_full /\ tags_ok st
  /\ s_tags st = Some [B "one two"; B "$three"] /\ trie_lookup (s_global st) (B "V_1") = Some (B "it's $(a) ""b""").
Proof.
  assert (H : seen ex_full (fun st => (s_tags st, trie_lookup (s_global st) (B "V_1")))
              = Some (Some [B "one two"; B "$three"], Some (B "it's $(a) ""b"""))) by (vm_compute; reflexivity).
  assert (U : utf8 ex_full) by (apply valid_utf8; vm_compute; reflexivity).
  revert H U. generalize ex_full. intros src H U. destruct (seen_some H) as (st & Es & Hv). exists st.
  assert (H2 : s_tags st = Some [B "one two"; B "$three"]) by (apply (f_equal fst) in Hv; exact Hv).
  assert (H3 : trie_lookup (s_global st) (B "V_1") = Some (B "it's $(a) ""b""")) by (apply (f_equal snd) in Hv; exact Hv).
  split; [exact Es|]. split; [exact U|]. split; [|split; assumption].
  intros l E. rewrite H2 in E. apply (f_equal (fun o => match o with Some x => x | None => [] end)) in E. cbv beta iota in E. subst l.
  constructor; [|constructor; [|constructor]]; vm_compute; intuition discriminate.
Qed.
