(* C94: blogc -p tells what a template would show. *)
From Verif Require Import Base Utils Utf8 Trie TrieProofs Filelist Template TemplateSpec TemplateStruct P_Template Datetime Source Loader Renderer RenderSpec P_Render Main MainSpec P_Main P_MainRun.
#[local] Open Scope nat_scope.
#[local] Arguments B : simpl never.

(* a template that shows one variable: of the post, or of the listing *)
Definition showing_text (listing : bool) (p : bytes) : bytes :=
  if listing then B "{{ " ++ p ++ B " }}" else B "{% block entry %}{{ " ++ p ++ B " }}{% endblock %}".
Definition showing_items (listing : bool) (p : bytes) : list item :=
  if listing then [IVar (B " ") p (B " ")]
  else [ITag false TBlock ONone (Some (B "entry")) [] None (B " block entry ") false; IVar (B " ") p (B " ");
        ITag false TEndblock ONone None [] None (B " endblock ") false].
Definition showing_prog (listing : bool) (p : bytes) : prog :=
  if listing then PVar p PEnd else PBlock (B "entry") (PVar p PEnd) PEnd.

Lemma showing_parse listing p : name_ok p -> template_parse (showing_text listing p) = Ok (inl (flatten (showing_prog listing p))).
Proof.
  intro Hp.
  assert (T : showing_text listing p = items_text (showing_items listing p)).
  { destruct listing; unfold showing_text, showing_items, items_text; cbn [map concat item_text dash]; rewrite ?app_nil_r; rewrite <- ?app_assoc; reflexivity. }
  assert (Hok : items_ok (showing_items listing p)).
  { split; [|destruct listing; reflexivity].
    assert (V : item_ok (IVar (B " ") p (B " "))) by (split; [reflexivity|split; [exact Hp|reflexivity]]).
    assert (S1 : blanks1 (B " ")) by (split; [reflexivity|discriminate]).
    assert (S0 : blanks (B " ")) by reflexivity.
    destruct listing; unfold showing_items; repeat apply Forall_cons; try apply Forall_nil; try exact V; cbn [item_ok].
    - split; [|left; auto]. apply (BBlock (w0 := B " ") (s1 := B " ") (v := B "entry") (s2 := B " ")); auto. simpl. auto.
    - split; [|left; auto]. apply (BClose (ty := TEndblock) (w0 := B " ") (s := B " ")); auto. simpl. auto. }
  assert (Hl : last_text_kept (showing_items listing p)).
  { intros l' u x H. assert (E : last (showing_items listing p) (IText []) = IText (u ++ ["{"%char; x])) by (rewrite H; apply last_last).
    destruct listing; discriminate E. }
  pose proof (doc_whole Hok Hl) as H. rewrite T. apply parse_abs_inl. destruct listing; exact H.
Qed.
Lemma showing_fits listing p : name_ok p -> fits false false (showing_prog listing p).
Proof. intro H. destruct p; [destruct H|]. destruct listing; repeat split; discriminate. Qed.
Lemma name_not_empty p : name_ok p -> p <> [].
Proof. destruct p; [intros []|discriminate]. Qed.

Section Ask.
Variable contents : bytes -> option bytes.
Variable mktime : tm -> tm.
Variable strftime : bytes -> tm -> option bytes.
Variable funcs : list (bytes * (vars -> vars)).
Variable sfuel rfuel : nat.
Variable mkdir fopen : bytes -> bool.
Variable stored : bytes -> bytes -> bytes.
Variable version : bytes.
Notation blogc := (blogc_main contents mktime strftime funcs sfuel rfuel mkdir fopen stored version).
Notation run := (compile contents mktime strftime funcs sfuel rfuel mkdir fopen stored).
Notation conv := (convert mktime strftime).
Notation inject := (funcvars_eval funcs).
Definition command_line (args : list bytes) (o : opts) : Prop :=
  parse_args args (no_opts (trie_insert trie_new (B "BLOGC_VERSION") version)) = Ok (inl o).

(* what -p prints for a value *)
Definition told (v : option bytes) : list effect * nat :=
  match v with Some v => ([EPrint (v ++ [LF])], 0) | None => ([EError], 78) end.
(* the post whose variables are seen *)
Definition seen_post (listing : bool) (posts : list vars) : option vars :=
  if listing then None else match posts with x :: _ => Some x | [] => None end.

Lemma showing_output listing p posts entries config :
  fst (output conv inject posts listing true (showing_prog listing p) entries config)
  = match fst (resolve conv inject p config (seen_post listing posts) None) with Some v => v | None => [] end.
Proof.
  unfold output, showing_prog, seen_post. destruct listing; cbn [meaning].
  - unfold var_in. cbn [e_global e_local]. destruct (resolve _ _ _ _ _ _) as [v g]. cbn. apply app_nil_r.
  - unfold block_action. rewrite beq_refl. cbn [rounds]. cbn [meaning]. unfold var_in, see. cbn [e_global e_local].
    destruct (resolve _ _ _ _ _ _) as [v g]. cbn. rewrite !app_nil_r. reflexivity.
Qed.

Lemma run_told o sources p : o_print o = Some p -> p <> [] -> forall r, run o sources = Ok r ->
  (exists n, r = ([EError], n) /\ n <> 0 /\ forall o', o_config o' = o_config o -> o_listing o' = o_listing o -> o_entries o' = o_entries o -> run o' sources = Ok ([EError], n))
  \/ exists posts config entries,
      source_parse_from_files contents mktime strftime sfuel (o_config o) sources = Ok (Loaded (posts, config))
      /\ (if o_listing o then load_entries contents sfuel config (o_entries o) else Ok (Some [])) = Ok (Some entries)
      /\ (negb (o_listing o) && Nat.eqb (length sources) 0 = false) /\ (negb (o_listing o) && Nat.ltb 1 (length sources) = false)
      /\ r = told (fst (resolve conv inject p config (seen_post (o_listing o) posts) None)).
Proof.
  intros Hp Hn r H. unfold compile in H.
  destruct (negb (o_listing o) && Nat.eqb (length sources) 0) eqn:E1.
  { inv H. left. eexists. split; [reflexivity|]. split; [discriminate|]. intros o' _ L _. unfold compile. rewrite L, E1. reflexivity. }
  destruct (negb (o_listing o) && Nat.ltb 1 (length sources)) eqn:E2.
  { inv H. left. eexists. split; [reflexivity|]. split; [discriminate|]. intros o' _ L _. unfold compile. rewrite L, E1, E2. reflexivity. }
  destruct (source_parse_from_files _ _ _ _ _ _) as [[[s config]|e]| |] eqn:Es; cbn [rbind] in H; try discriminate.
  2:{ inv H. left. eexists. split; [reflexivity|]. split; [discriminate|]. intros o' C L _. unfold compile. rewrite L, E1, E2, C, Es. reflexivity. }
  destruct (if o_listing o then load_entries contents sfuel config (o_entries o) else Ok (Some [])) as [[entries|]| |] eqn:Ee; cbn [rbind] in H; try discriminate.
  2:{ inv H. left. eexists. split; [reflexivity|]. split; [discriminate|]. intros o' C L N. unfold compile. rewrite L, E1, E2, C, Es. cbn [rbind]. rewrite N, Ee. reflexivity. }
  right. exists s, config, entries. split; [reflexivity|]. split; [exact Ee|]. split; [reflexivity|]. split; [reflexivity|].
  rewrite Hp in H. pose proof (@C24_resolution_exact conv funcs p config (seen_post (o_listing o) s) None Hn) as R. cbn [option_map] in R.
  match type of H with rbind ?x _ = _ => assert (Px : x = Ok (resolve conv inject p config (seen_post (o_listing o) s) None)) by exact R end.
  rewrite Px in H. cbn [rbind] in H. injection H as <-. reflexivity.
Qed.

(* C94: with -p NAME blogc prints the value of the variable and a newline, in the
   order of C24: of the post, or of the listing and the command line. With status 78
   there is none. Every other failure is one the run has without -p, too. *)
Theorem C94_value : forall args stdin o p l n, command_line args o -> o_print o = Some p -> p <> [] ->
  blogc args stdin = Ok (l, n) ->
  exists sources, sources_of o stdin sources /\
  ((l = [EError] /\ n <> 0 /\
      forall o', o_config o' = o_config o -> o_listing o' = o_listing o -> o_entries o' = o_entries o -> run o' sources = Ok ([EError], n))
   \/ exists posts config, source_parse_from_files contents mktime strftime sfuel (o_config o) sources = Ok (Loaded (posts, config))
        /\ (l, n) = told (fst (resolve conv inject p config (seen_post (o_listing o) posts) None))).
Proof.
  intros args stdin o p l n Ha Hp Hn H.
  assert (X : exists sources, sources_of o stdin sources /\ run o sources = Ok (l, n)).
  { unfold blogc_main in H. unfold command_line in Ha. fold (no_opts (trie_insert trie_new (B "BLOGC_VERSION") version)) in H.
    rewrite Ha in H. cbn [rbind] in H. unfold sources_of. destruct (o_stdin o); [|eauto].
    destruct (filelist_parse stdin) as [fl| |]; cbn [rbind] in H; try discriminate.
    exists (o_sources o ++ map snd fl). split; [eauto|].
    destruct (run o _) as [r| |]; cbn [rbind] in H; try discriminate. destruct (filelist_free fl); cbn [rbind] in H; try discriminate. inv H. reflexivity. }
  destruct X as (sources & S & R). exists sources. split; [exact S|].
  destruct (run_told Hp Hn R) as [(m & E & Hm & F)|(posts & config & entries & E1 & E2 & E3 & E4 & E)].
  - left. inv E. auto.
  - right. eauto.
Qed.

(* C94: what -p tells is what a template showing the variable makes of the same command
   line and files. *)
Theorem C94_shown : forall args args' stdin o o' p t l n l' n',
  command_line args o -> command_line args' o' -> name_ok p ->
  o_print o = Some p -> o_print o' = None -> o_template o' = Some t -> o_output o' = None ->
  o_listing o' = o_listing o -> o_stdin o' = o_stdin o -> o_sources o' = o_sources o -> o_entries o' = o_entries o -> o_config o' = o_config o ->
  contents t = Some (showing_text (o_listing o) p) ->
  blogc args stdin = Ok (l, n) -> blogc args' stdin = Ok (l', n') ->
  let quiet := filter (fun e => match e with EDebug => false | _ => true end) in
  (exists v, l = [EPrint (v ++ [LF])] /\ n = 0 /\ quiet l' = [EPrint v] /\ n' = 0)
  \/ (l = [EError] /\ n = 78 /\ quiet l' = [EPrint []] /\ n' = 0)
  \/ (l = [EError] /\ l' = [EError] /\ n = n' /\ n <> 0).
Proof.
  intros args args' stdin o o' p t l n l' n' Ha Ha' Hp P P' T O L S Sr En C Ct H H' quiet.
  assert (X : exists sources, run o sources = Ok (l, n) /\ run o' sources = Ok (l', n')).
  { unfold blogc_main in H, H'. unfold command_line in Ha, Ha'. fold (no_opts (trie_insert trie_new (B "BLOGC_VERSION") version)) in H, H'.
    rewrite Ha in H. rewrite Ha' in H'. cbn [rbind] in H, H'. rewrite S, Sr in H'.
    destruct (o_stdin o); [|eauto]. destruct (filelist_parse stdin) as [fl| |]; cbn [rbind] in H, H'; try discriminate.
    exists (o_sources o ++ map snd fl).
    destruct (run o _) as [r| |]; cbn [rbind] in H; try discriminate. destruct (run o' _) as [r'| |]; cbn [rbind] in H'; try discriminate.
    destruct (filelist_free fl); cbn [rbind] in H, H'; try discriminate. inv H. inv H'. auto. }
  destruct X as (sources & R & R').
  destruct (run_told P (name_not_empty Hp) R) as [(m & E & Hm & F)|(posts & config & entries & E1 & E2 & E3 & E4 & E)].
  - right. right. inv E. rewrite (F o' C L En) in R'. inv R'. auto.
  - unfold compile in R'. rewrite L, E3, E4, C, E1 in R'. cbn [rbind] in R'. rewrite En, E2 in R'. cbn [rbind] in R'. rewrite P', T, Ct in R'.
    rewrite (showing_parse (o_listing o) Hp) in R'. cbn [rbind] in R'.
    destruct (render _ _ _ _ _ _ _ _) as [out| |] eqn:Er; cbn [rbind] in R'; try discriminate.
    assert (Q : fst out = Some (match fst (resolve conv inject p config (seen_post (o_listing o) posts) None) with Some v => v | None => [] end)).
    { rewrite <- (showing_output (o_listing o) p posts entries config). eapply render_page; [exact Er|reflexivity|apply showing_fits; exact Hp|].
      destruct (o_listing o); discriminate. }
    rewrite Q, O in R'. unfold write_page in R'. inv R'. unfold told in E.
    destruct (fst (resolve _ _ _ _ _ _)) as [v|]; inv E.
    + left. exists v. repeat split. destruct (o_debug o'); reflexivity.
    + right. left. repeat split. destruct (o_debug o'); reflexivity.
Qed.
End Ask.
Print Assumptions C94_value.
Print Assumptions C94_shown.

(* the title of the post, a variable cut to three bytes, a page number, none at all; and the
   templates that show them *)
Definition ask_contents (f : bytes) : option bytes :=
  if beq f (B "e1") then Some (showing_text false (B "TITLE")) else if beq f (B "l1") then Some (showing_text true (B "LAST_PAGE"))
  else if beq f (B "e2") then Some (showing_text false (B "SITE_3")) else if beq f (B "e3") then Some (showing_text false (B "NOWHERE"))
  else ex_contents f.
Definition ask (args : list bytes) : res (list effect * nat) :=
  blogc_main ask_contents (fun t => t) (fun _ _ => Some (B "0")) [] 1000 1000 (fun _ => true) (fun _ => true) (fun _ x => x) (B "1.0") args [].
Example C94_example :
  ask [B "-D"; B "SITE=abcd"; B "-p"; B "TITLE"; B "/r/a b.txt"] = Ok ([EPrint (B "it" ++ [LF])], 0) /\
  ask [B "-D"; B "SITE=abcd"; B "-t"; B "e1"; B "/r/a b.txt"] = Ok ([EPrint (B "it")], 0) /\
  ask [B "-D"; B "SITE=abcd"; B "-p"; B "SITE_3"; B "/r/a b.txt"] = Ok ([EPrint (B "abc" ++ [LF])], 0) /\
  ask [B "-D"; B "SITE=abcd"; B "-t"; B "e2"; B "/r/a b.txt"] = Ok ([EPrint (B "abc")], 0) /\
  ask [B "-l"; B "-D"; B "FILTER_PER_PAGE=1"; B "-D"; B "FILTER_PAGE=1"; B "-p"; B "LAST_PAGE"; B "/r/a b.txt"; B "/r/#c.txt"] = Ok ([EPrint (B "2" ++ [LF])], 0) /\
  ask [B "-l"; B "-D"; B "FILTER_PER_PAGE=1"; B "-D"; B "FILTER_PAGE=1"; B "-t"; B "l1"; B "/r/a b.txt"; B "/r/#c.txt"] = Ok ([EPrint (B "2")], 0) /\
  ask [B "-p"; B "NOWHERE"; B "/r/a b.txt"] = Ok ([EError], 78) /\
  ask [B "-t"; B "e3"; B "/r/a b.txt"] = Ok ([EPrint []], 0) /\
  ask [B "-p"; B "TITLE"; B "/nowhere"] = Ok ([EError], 1) /\
  ask [B "-t"; B "e1"; B "/nowhere"] = Ok ([EError], 1).
Proof. repeat split; vm_compute; reflexivity. Qed.
