(* C95: from the command line of blogc-make to what the files of the site hold. *)
From Verif Require Import Base Utils Utf8Proofs Trie Datetime Settings SettingsSpec Renderer BlogcCmd Rules RulesSpec BuildSpec Ctx CtxSpec MakeMain MakeMainSpec ShSpec Source Loader LoaderSpec.
From Verif Require Import Main MainSpec P_Main P_Build P_Ctx P_MakeMain P_MainRun SiteSpec P_Site PagesSpec P_Pages P_Life.
From Verif Require P_BlogcCmd P_Loader Utf8 Atom.
From Coq Require Import ZArith.
#[local] Open Scope nat_scope.
#[local] Arguments B : simpl never.

Section Whole.
Variable W : Type.
Variable stat : W -> bytes -> option (Z * Z).
Variable look_at : W -> bytes -> node.
Variable file : W -> bytes -> option bytes.
Variable text : bytes -> option bytes.
Variable getcwd : W -> option bytes.
Variable mkstemp : W -> settings -> W * option bytes.
Variable unlink : W -> bytes -> W.
Variable getenv : bytes -> option bytes.
Variable access : bytes -> bool.
Variable command : W -> bytes -> bytes -> W * cmd_result.
Variable cp : W -> fctx -> fctx -> W * nat.
Variable rm : W -> bytes -> fctx -> W * nat.
Variable helper : bytes -> ctx -> option (trie bytes) -> W -> W * nat.
Variable mktime : tm -> tm.
Variable strftime : option bytes -> bytes -> tm -> option bytes.
Variable funcs : W -> list (bytes * (vars -> vars)).
Variable sfuel rfuel : nat.
Variable mkdir fopen : W -> bytes -> bool.
Variable version : bytes.
Notation blogc_make := (make_main stat look_at (contents file text) getcwd mkstemp unlink getenv access command cp rm helper).
Notation made := (made stat look_at (contents file text) getcwd mkstemp (getenv (B "OUTPUT_DIR"))).
Notation exec := (executor stat command cp rm helper).
Notation right := (right file text mktime strftime funcs sfuel version).
Notation honest := (honest stat file text mktime strftime funcs sfuel version).
Notation runs_blogc := (runs_blogc stat file text mktime strftime funcs sfuel rfuel mkdir fopen version).
Notation tells_blogc := (tells_blogc file text mktime strftime funcs sfuel rfuel mkdir fopen version).

(* requests to build run rules that build, one after the other *)
Lemma requests_keep c (I : W -> Prop) : (forall r w, In r (build_rules stat command cp) -> I w -> I (fst (rule_execute c r w))) ->
  forall l, (forall s, In s l -> exists n, asks_for s n /\ (n = B "all" \/ In n builds)) -> forall rv w, I w -> I (fst (exec c l rv w)).
Proof.
  intros R. induction l as [|s l IH]; intros Hl rv w Hw; cbn [executor]; [exact Hw|].
  destruct (Hl s (or_introl eq_refl)) as (n & Hn & Hb). pose proof (split_asks Hn) as En.
  destruct (split_rule s) as [name args]. cbn [fst] in En. subst name.
  assert (IH' : forall w, I w -> I (fst (exec c l 0 w))) by (intros w0; apply IH; intros s0 Hs; apply Hl; right; exact Hs).
  destruct Hb as [->|Hb].
  - change (find_rule stat command cp rm helper (B "all")) with (Some (fun c (_ : option (trie bytes)) w => all_exec stat command cp c w)).
    cbv beta iota. assert (X : I (fst (all_exec stat command cp c w))).
    { unfold all_exec. revert w Hw R. generalize (build_rules stat command cp). clear. induction l as [|r rs IH]; intros w Hw R; [exact Hw|].
      cbn [run_all]. pose proof (R r w (or_introl eq_refl) Hw) as H. destruct (rule_execute c r w) as [w2 x]. cbn [fst] in H.
      destruct x as [[|x]| |]; try exact H. apply IH; [exact H|]. intros r' w' Hr. apply R. right. exact Hr. }
    destruct (all_exec stat command cp c w) as [w1 x]. cbn [fst] in X. destruct x as [[|x]| |]; [apply IH'; exact X|exact X|exact X|exact X].
  - rewrite <- (build_names stat command cp) in Hb. apply in_map_iff in Hb. destruct Hb as (r & <- & Hr). rewrite (find_build rm helper Hr).
    pose proof (R r w Hr Hw) as X. destruct (rule_execute c r w) as [w1 x]. cbn [fst] in X. destruct x as [[|x]| |]; [apply IH'; exact X|exact X|exact X|exact X].
Qed.

Hypothesis text8 : forall b t, text b = Some t -> utf8 t.                                    (* the files are read as UTF-8, FileIO.v *)
Hypothesis no_func : forall w, Forall (fun f => fst f <> B "LAST_PAGE") (funcs w).           (* funcvars.c *)
Hypothesis unlinked : forall w p q, q <> p -> stat (unlink w p) q = stat w q /\ file (unlink w p) q = file w q.

(* blogc-make, asked to build a site: it complains and returns 1, or it has read the
   blogcfile. Then, whatever status it returns: no file of the site is out of date without
   the times showing it, if that was so before; the inputs are as they were. If it returns 0,
   each file of the rules it was asked for holds what the blogcfile, the templates and the
   sources say. The template for feeds that it may have written itself is gone then. *)
Theorem C95_make_partial : forall fuel argv0 items args blogcfile w w' said rv,
  line items args -> blogcfile_of items blogcfile ->
  (forall s, In s (rules_to_run items) -> exists n, asks_for s n /\ (n = B "all" \/ In n builds)) ->
  blogc_make fuel argv0 args w = (w', said, Ok rv) ->
  (said = Said_error /\ rv = 1) \/
  exists w1 w2 c, made w w1 blogcfile c /\ (e_dev (c_exec c) = true <-> wants_dev items) /\
    w' = (if c_atom_tmp c then unlink w2 (f_path (c_atom c)) else w2) /\
  forall answer now bin,
    tags_ok (c_st c) -> (forall l, s_posts (c_st c) = Some l -> ~ In [] l) -> (forall l, s_pages (c_st c) = Some l -> ~ In [] l) ->
    (forall f, In f (inputs c) -> stat w1 (f_path f) <> None) ->
    P_BlogcCmd.word (e_blogc (c_exec c)) bin -> nameable c answer -> apart c answer ->
    runs_blogc now c bin command -> tells_blogc now bin command -> copies stat file now c cp -> now w1 ->
    counted file text sfuel c answer w1 -> honest c answer w1 ->
    honest c answer w2 /\ (forall f, In f (inputs c) -> file w2 (f_path f) = file w1 (f_path f)) /\
    (rv = 0 -> forall rule n d, wanted (rules_to_run items) rule -> In rule builds -> product c answer rule n d ->
      right c answer w2 (absolute c n) /\ up_to_date stat w2 (absolute c n) d /\
      file w' (absolute c n) = file w2 (absolute c n) /\ stat w' (absolute c n) = stat w2 (absolute c n)).
Proof.
  intros fuel argv0 items args blogcfile w w' said rv L F Rl H.
  destruct (ctx_new stat look_at (contents file text) getcwd mkstemp unlink (getenv (B "OUTPUT_DIR")) fuel None
    (find_binary getenv access argv0 (B "blogc") (B "BLOGC")) (find_binary getenv access argv0 (B "blogc-runserver") (B "BLOGC_RUNSERVER")) w blogcfile) as [w1 r] eqn:R.
  pose proof (args_line L [] (MOpts false false None [])) as Ar. rewrite app_nil_r in Ar. cbn [make_args] in Ar.
  unfold make_main in H. rewrite Ar, (the_file F), R in H.
  destruct r as [[c0|]| |]; try (apply (f_equal snd) in H; discriminate H); [|left; injection H as _ <- <-; split; reflexivity].
  cbv zeta in H. set (c := set_dev _ c0) in H.
  match type of H with (if ?b then _ else _) = _ => destruct b; [left; injection H as _ <- <-; split; reflexivity|] end.
  right. rewrite added_rules in H. cbn [m_rules app] in H. fold (rules_to_run items) in H.
  destruct (exec c (rules_to_run items) 0 w1) as [w2 x] eqn:E.
  destruct x as [rv'| |]; try (apply (f_equal snd) in H; discriminate H).
  assert (rv' = rv /\ w' = free_internal unlink w2 c) as [-> ->] by (split; congruence). clear H.
  assert (M : made w w1 blogcfile c) by exact (made_dev _ (C71_context R)).
  exists w1, w2, c. split; [exact M|]. split; [subst c; cbn [set_dev c_exec e_dev]; rewrite added_dev; cbn; intuition congruence|].
  split; [reflexivity|]. intros answer now bin Tg N1 N2 In1 Hb Na Ap Run Tell Cp Now Ct Ho.
  assert (Hok : site_ok c) by exact (C71_site_ok R N1 N2 In1).
  destruct M as (abs & content & st & atom & _ & Ec & Est & (Es & _) & _). rewrite <- Es in Est.
  assert (U8 : utf8 content). { unfold contents in Ec. destruct (file w abs) as [b|]; [|discriminate]. exact (text8 Ec). }
  assert (An : answers command (meanwhile file now c w1) c answer).
  { eapply counted_answers; try eassumption. intros f Hf. apply (na_sources Na). apply in_app_iff. left. exact Hf. }
  destruct (tools_keep Est U8 Tg Hb Na Ap Hok Run Cp An) as (Sd & Ph & B1 & B2).
  assert (Mw : meanwhile file now c w1 w1) by (split; [intros f _; reflexivity|exact Now]).
  assert (K : honest c answer w2 /\ meanwhile file now c w1 w2).
  { replace w2 with (fst (exec c (rules_to_run items) 0 w1)) by (rewrite E; reflexivity).
    apply requests_keep with (I := fun x => honest c answer x /\ meanwhile file now c w1 x); [|exact Rl|split; [exact Ho|exact Mw]].
    apply (@rule_keeps W stat command cp (meanwhile file now c w1) c answer); [exact Hok|exact An|intros x [_ X]; exact X|exact B1|exact B2]. }
  destruct K as [K1 [K2 _]]. split; [exact K1|]. split; [exact K2|]. intros -> rule n d Hw Hr Hp.
  destruct (run_requests Sd Ph Hok An Rl Mw E) as (_ & _ & Up).
  pose proof (Up rule Hw Hr n d Hp) as X. split; [exact (K1 _ _ _ Hp X)|]. split; [exact X|].
  unfold free_internal. destruct (c_atom_tmp c) eqn:Et; [|split; reflexivity].
  destruct (@unlinked w2 (f_path (c_atom c)) (absolute c n)) as [X1 X2]; [|split; assumption].
  apply (ap_inputs Ap Hp). unfold inputs. cbn [In app]. tauto.
Qed.
End Whole.
Print Assumptions C95_make_partial.

(* ---- a blogcfile, two posts and a template, in /r; blogc-make is run there ---- *)
Definition y_read (b : bytes) : option bytes := match Utf8.utf8_validate b with Ok true => Some b | _ => None end.
Lemma y_read8 b t : y_read b = Some t -> utf8 t.
Proof. unfold y_read. destruct (Utf8.utf8_validate b) as [[|]| |] eqn:E; try discriminate. intro X. injection X as <-. apply validate_iff. exact E. Qed.
Definition y_blogc (w : sdisk) := blogc_main (contents s_file y_read w) (fun t => t) (fun _ _ => None) [] 400 400 (fun _ => true) (fun _ => true) (fun _ t => t) (B "1").
Definition y_command (w : sdisk) (cmd input : bytes) : sdisk * cmd_result :=
  match sh_words cmd with
  | Some ws => match s_call ws with
               | Some (_, args) => match y_blogc w args input with Ok (l, n) => (s_effects l w, CmdDone n (s_printed l) None) | _ => (w, CmdError) end
               | None => (w, CmdError)
               end
  | None => (w, CmdError)
  end.
Definition y_mkstemp (w : sdisk) (st : settings) : sdisk * option bytes :=
  match Atom.atom_generate st with Ok t => (s_put w (B "/tmp/blogc-make_0") t, Some (B "/tmp/blogc-make_0")) | _ => (w, None) end.
Definition y_unlink (w : sdisk) (p : bytes) : sdisk := (filter (fun x => negb (beq (fst x) p)) (fst w), snd w).
Lemma y_unlinked w p q : q <> p -> s_stat (y_unlink w p) q = s_stat w q /\ s_file (y_unlink w p) q = s_file w q.
Proof.
  intro H. assert (X : s_find (y_unlink w p) q = s_find w q).
  { unfold s_find, y_unlink. cbn [fst]. replace (find (fun x => beq (fst x) q) (filter (fun x => negb (beq (fst x) p)) (fst w))) with (find (fun x => beq (fst x) q) (fst w)); [reflexivity|]. symmetry. induction (fst w) as [|x l IH]; [reflexivity|]. cbn [filter find].
    destruct (beq (fst x) p) eqn:E; cbn [negb]; [|cbn [find]; rewrite IH; reflexivity].
    apply beq_eq in E. replace (beq (fst x) q) with false; [exact IH|]. symmetry. apply beq_neq. congruence. }
  unfold s_stat, s_file. rewrite X. split; reflexivity.
Qed.
Definition y_text : bytes := B "[global]
AUTHOR_NAME = A
AUTHOR_EMAIL = a@b.c
SITE_TITLE = The site
SITE_TAGLINE = L
BASE_DOMAIN = http://x
[settings]
posts_per_page = 1
post_prefix = post
[posts]
a
b
".
Definition y_world : sdisk :=
  (map (fun x => (B "/r/" ++ fst (fst x), (snd (fst x), snd x)))
    [(B "blogcfile", 2%Z, y_text);
     (B "templates/main.tmpl", 1%Z, B "{{ SITE_TITLE }}{% block listing %} [{{ TITLE }}]{% endblock %}{% block entry %}: {{ TITLE }} {{ CONTENT }}{% endblock %}");
     (B "content/post/a.txt", 3%Z, B "TITLE: A" ++ [LF] ++ B "-----" ++ [LF] ++ B "Hi *a*." ++ [LF]);
     (B "content/post/b.txt", 4%Z, B "TITLE: B" ++ [LF] ++ B "-----" ++ [LF] ++ B "b" ++ [LF])], 20%Z).
Definition y_new := ctx_new s_stat (fun _ _ => File) (contents s_file y_read) (fun _ => Some (B "/r")) y_mkstemp y_unlink None 20 None (B "blogc") (B "blogc-runserver") y_world (B "blogcfile").
Definition y_make (args : list bytes) (w : sdisk) : sdisk * said * res nat :=
  make_main s_stat (fun _ _ => File) (contents s_file y_read) (fun _ => Some (B "/r")) y_mkstemp y_unlink (fun _ => None) (fun _ => false)
    y_command s_cp (fun w _ _ => (w, 1)) (fun _ _ _ w => (w, 1)) 20 (Some (B "blogc-make")) args w.
Definition y_site : ctx := match snd y_new with Ok (Some c) => c | _ => s_site end.
Definition y_w1 : sdisk := fst y_new.
Notation y_now := (s_now_at 21).
Definition y_post (f : bytes) : trie bytes :=
  match source_parse_from_file (contents s_file y_read y_w1) 400 (s_global (c_st y_site)) f with Ok (Loaded p) => p | _ => trie_new end.
Definition y_posts : list (trie bytes) := [y_post (B "/r/content/post/a.txt"); y_post (B "/r/content/post/b.txt")].
Definition y_answer (tag : option bytes) : option bytes := last_of_posts y_posts 1 tag.
Definition y_outputs : list bytes :=
  [B "/r/_build/index.html"; B "/r/_build/atom.xml"; B "/r/_build/page/1/index.html"; B "/r/_build/page/2/index.html"; B "/r/_build/post/a/index.html"; B "/r/_build/post/b/index.html"].
Lemma y_products rule n d : product y_site y_answer rule n d -> In (absolute y_site n) y_outputs.
Proof.
  assert (Po : s_posts (c_st y_site) = Some [B "a"; B "b"]) by (vm_compute; reflexivity).
  assert (Pa : s_pages (c_st y_site) = None) by (vm_compute; reflexivity).
  assert (Ta : s_tags (c_st y_site) = None) by (vm_compute; reflexivity).
  assert (Co : s_copy (c_st y_site) = None) by (vm_compute; reflexivity).
  assert (An : y_answer None = Some (B "2")) by (vm_compute; reflexivity).
  assert (Pg : forall k, BuildSpec.page_of y_answer None k -> k = 1 \/ k = 2).
  { intros k (s & E & H). rewrite An in E. injection E as <-. replace (fst (strtol (B "2"))) with 2%Z in H by reflexivity. lia. }
  intros [n' _ _ E|n' _ _ E|tags t n' _ E1 E2 _ E|k n' _ _ E2 E|tags t k n' _ E1 E2 _ E3 E|posts i p f n' E1 E2 E3 E|tags t n' _ E1 E2 _ E|pages i p f n' E1 E2 E3 E|f E0 E].
  all: try (rewrite Ta in E1; discriminate E1).
  all: try (rewrite Pa in E1; discriminate E1).
  all: try (rewrite Co in E0; destruct (E0 eq_refl)).
  - vm_compute in E. injection E as <-. left. vm_compute. reflexivity.
  - vm_compute in E. injection E as <-. right; left. vm_compute. reflexivity.
  - apply Pg in E2. destruct E2 as [-> | ->]; vm_compute in E; injection E as <-; [do 2 right; left|do 3 right; left]; vm_compute; reflexivity.
  - rewrite Po in E1. injection E1 as <-. destruct i as [|[|[|i]]]; try discriminate E2; injection E2 as <-; vm_compute in E; injection E as <-; [do 4 right; left|do 5 right; left]; vm_compute; reflexivity.
Qed.
Lemma y_inputs : map (fun f => (f_path f, f_time f)) (inputs y_site) =
  [(B "/r/blogcfile", (2, 0)%Z); (B "/r/templates/main.tmpl", (1, 0)%Z); (B "/tmp/blogc-make_0", (20, 0)%Z); (B "/r/content/post/a.txt", (3, 0)%Z); (B "/r/content/post/b.txt", (4, 0)%Z)].
Proof. vm_compute. reflexivity. Qed.
Lemma y_input f : In f (inputs y_site) -> In (f_path f, f_time f)
  [(B "/r/blogcfile", (2, 0)%Z); (B "/r/templates/main.tmpl", (1, 0)%Z); (B "/tmp/blogc-make_0", (20, 0)%Z); (B "/r/content/post/a.txt", (3, 0)%Z); (B "/r/content/post/b.txt", (4, 0)%Z)].
Proof. intro H. rewrite <- y_inputs. apply (in_map (fun f => (f_path f, f_time f))). exact H. Qed.
Lemma y_written w p t : s_stat w p = Some t -> (21 <= fst t)%Z -> BuildSpec.written s_stat y_site w p.
Proof.
  intros E H. exists t. split; [exact E|]. intros f Hf. left. apply y_input in Hf. cbn [In] in Hf.
  repeat (destruct Hf as [Hf|Hf]; [injection Hf as _ <-; cbn [fst]; lia|]). destruct Hf.
Qed.
Lemma y_runs : runs_blogc s_stat s_file y_read (fun t => t) (fun _ _ _ => None) (fun _ => []) 400 400 (fun _ _ => true) (fun _ _ => true) (B "1") y_now y_site (B "blogc") y_command.
Proof.
  intros w cmd input locale args Hn Hw. unfold y_command. rewrite Hw, call_words. unfold y_blogc.
  destruct (blogc_main _ _ _ _ _ _ _ _ _ _ _ _) as [[l n]| |] eqn:E.
  - destruct (effects_spec l Hn) as (A1 & A2 & A3 & A4 & A5 & A6). split; [exact A1|]. split; [exact A2|]. left. exists l, n, (s_printed l), None.
    split; [reflexivity|]. split; [reflexivity|]. split; [exact A3|]. split; [exact A4|]. intros p Hp. destruct (A6 p Hp) as (t & Et & Ht). exact (y_written Et Ht).
  - split; [exact Hn|]. split; [apply later_refl|]. right. repeat split; discriminate.
  - split; [exact Hn|]. split; [apply later_refl|]. right. repeat split; discriminate.
Qed.
Lemma y_tells : tells_blogc s_file y_read (fun t => t) (fun _ _ _ => None) (fun _ => []) 400 400 (fun _ _ => true) (fun _ _ => true) (B "1") y_now (B "blogc") y_command.
Proof.
  intros w cmd input locale args l n Hn Hw E Hl. exists None. unfold y_command. rewrite Hw, call_words. unfold y_blogc. rewrite E.
  assert (X : s_effects l w = w).
  { clear - Hl. induction l as [|e l IH]; [reflexivity|]. destruct e; cbn [s_effects]; try (apply IH; intros e He; apply Hl; right; exact He).
    - discriminate (Hl _ (or_introl eq_refl)).
    - discriminate (Hl _ (or_introl eq_refl)). }
  rewrite X. reflexivity.
Qed.
Lemma y_copies : copies s_stat s_file y_now y_site s_cp.
Proof.
  intros w s o Hn. unfold s_cp. destruct (s_file w (f_path s)) as [b|] eqn:E.
  - destruct (now_put (f_path o) b Hn) as [A1 A2]. split; [exact A1|]. split; [exact A2|]. split; [|split; [|split]].
    + intros p Hp. rewrite file_put. replace (beq (f_path o) p) with false by (symmetry; apply beq_neq; congruence). reflexivity.
    + intros p Hp _. rewrite stat_put. replace (beq (f_path o) p) with false by (symmetry; apply beq_neq; congruence). reflexivity.
    + intros _. rewrite file_put, beq_refl. split; [congruence|]. split; [discriminate|]. eapply y_written; [rewrite stat_put, beq_refl; reflexivity|]. apply Hn.
    + intro X. destruct (X eq_refl).
  - split; [exact Hn|]. split; [apply later_refl|]. split; [reflexivity|]. split; [reflexivity|]. split; [discriminate|]. auto.
Qed.
Lemma y_apart : apart y_site y_answer.
Proof.
  split.
  - intros rule n d f P Hf. apply y_products in P. apply y_input in Hf. revert P Hf. generalize (absolute y_site n), (f_path f), (f_time f). clear. intros p q t P Hf E. subst q.
    cbn [In y_outputs] in P. repeat (destruct P as [<-|P]; [cbn [In] in Hf; repeat (destruct Hf as [Hf|Hf]; [discriminate Hf|]); exact Hf|]). exact P.
  - intros rule n d rule' n' d' P P'. apply y_products in P, P'. assert (F : forallb (fun p => forallb (fun q => negb (parentb p q)) y_outputs) y_outputs = true) by (vm_compute; reflexivity).
    rewrite forallb_forall in F. specialize (F _ P). rewrite forallb_forall in F. specialize (F _ P'). apply parentb_false. apply negb_true_iff. exact F.
Qed.
Lemma y_sources : map (option_map (fun f => (f_path f, f_slug f))) (c_posts y_site ++ c_pages y_site) = [Some (B "/r/content/post/a.txt", Some (B "a")); Some (B "/r/content/post/b.txt", Some (B "b"))].
Proof. vm_compute. reflexivity. Qed.
Lemma y_source f : In (Some f) (c_posts y_site ++ c_pages y_site) -> (f_path f, f_slug f) = (B "/r/content/post/a.txt", Some (B "a")) \/ (f_path f, f_slug f) = (B "/r/content/post/b.txt", Some (B "b")).
Proof.
  intro H. apply (in_map (option_map (fun f => (f_path f, f_slug f)))) in H. rewrite y_sources in H. cbn [option_map In] in H. destruct H as [H|[H|[]]]; injection H as H1 H2; rewrite <- H1, <- H2; auto.
Qed.
Lemma y_nameable : nameable y_site y_answer.
Proof.
  split.
  - apply no_nulb_spec. vm_compute. reflexivity.
  - apply no_nulb_spec. vm_compute. reflexivity.
  - intros e E. vm_compute in E. discriminate E.
  - intros f Hf. assert (X : f_path f = B "/r/content/post/a.txt" \/ f_path f = B "/r/content/post/b.txt") by (apply y_source in Hf; destruct Hf as [Hf|Hf]; injection Hf as -> _; auto).
    destruct X as [-> | ->]; (split; [apply no_nulb_spec; reflexivity|]); (split; [intro X; vm_compute in X; repeat (destruct X as [X|X]; [discriminate|]); exact X|]);
      (split; [intro X; vm_compute in X; repeat (destruct X as [X|X]; [discriminate|]); exact X|]); (split; [reflexivity|eexists; reflexivity]).
  - intros f s Hf Es. apply y_source in Hf. rewrite Es in Hf. assert (X : s = B "a" \/ s = B "b") by (destruct Hf as [Hf|Hf]; injection Hf as _ ->; auto).
    destruct X as [-> | ->]; apply ascii_text; reflexivity.
  - intros rule n d P. apply y_products in P. revert P. generalize (absolute y_site n). apply Forall_forall.
    repeat (constructor; [split; [apply no_nulb_spec; reflexivity|discriminate]|]). constructor.
Qed.
Lemma y_counted : counted s_file y_read 400 y_site y_answer y_w1.
Proof.
  split; [|exists 1; split; [|split; [lia|left; exists y_posts; split]]].
  - constructor.
    + vm_compute. reflexivity.
    + intros v Hv. unfold page_vars in Hv. cbn [In] in Hv. repeat (destruct Hv as [<-|Hv]; [vm_compute; reflexivity|]). destruct Hv.
    + intros (v & E & _). vm_compute in E. discriminate E.
    + intros (v & E & _). vm_compute in E. discriminate E.
    + intros tags t E Ht. assert (X : s_tags (c_st y_site) = None) by (vm_compute; reflexivity). rewrite X in E. discriminate E.
  - assert (X : look_str y_site (B "posts_per_page") = B "1") by (vm_compute; reflexivity). rewrite X. exact one_long.
  - constructor.
    + unfold P_Loader.posts. assert (X : map f_path (somes (c_posts y_site)) = [B "/r/content/post/a.txt"; B "/r/content/post/b.txt"]) by (vm_compute; reflexivity). rewrite X.
      constructor; [vm_compute; reflexivity|]. constructor; [vm_compute; reflexivity|constructor].
    + right. constructor; [intro X; apply X; vm_compute; reflexivity|]. constructor; [intro X; apply X; vm_compute; reflexivity|constructor].
    + vm_compute. reflexivity.
  - intro tag. apply last_page_fun; [lia|reflexivity].
Qed.
(* what was read meets the conditions; what was made is as the theorem says, and the
   template for the feed is gone *)
Example C95_example :
  line [I_rule (B "all")] [B "all"] /\ blogcfile_of [I_rule (B "all")] (B "blogcfile") /\
  (forall s, In s (rules_to_run [I_rule (B "all")]) -> exists n, asks_for s n /\ (n = B "all" \/ In n builds)) /\
  made s_stat (fun _ _ => File) (contents s_file y_read) (fun _ => Some (B "/r")) y_mkstemp None y_world y_w1 (B "blogcfile") y_site /\
  tags_ok (c_st y_site) /\ (forall l, s_posts (c_st y_site) = Some l -> ~ In [] l) /\ (forall l, s_pages (c_st y_site) = Some l -> ~ In [] l) /\
  (forall f, In f (inputs y_site) -> s_stat y_w1 (f_path f) <> None) /\ P_BlogcCmd.word (e_blogc (c_exec y_site)) (B "blogc") /\
  nameable y_site y_answer /\ apart y_site y_answer /\ y_now y_w1 /\ counted s_file y_read 400 y_site y_answer y_w1 /\
  honest s_stat s_file y_read (fun t => t) (fun _ _ _ => None) (fun _ => []) 400 (B "1") y_site y_answer y_w1 /\
  exists w', y_make [B "all"] y_world = (w', Said_nothing, Ok 0) /\
    s_file w' (B "/r/_build/post/a/index.html") = Some (B "The site: A <p>Hi <em>a</em>.</p>" ++ [LF]) /\
    s_file w' (B "/r/_build/page/2/index.html") = Some (B "The site [A]") /\ s_file w' (B "/tmp/blogc-make_0") = None.
Proof.
  split; [apply (@L_cons _ _ [B "all"] [] (Sp_rule (r := B "all") ltac:(intros (s & X); discriminate X))); constructor|].
  split; [apply BF_default; intros g [X|[]]; discriminate X|].
  split; [intros s [<-|[]]; exists (B "all"); split; [split; [intro X; vm_compute in X; repeat (destruct X as [X|X]; [discriminate X|]); exact X|left; reflexivity]|left; reflexivity]|].
  split; [apply (@C71_context _ s_stat (fun _ _ => File) (contents s_file y_read) (fun _ => Some (B "/r")) y_mkstemp y_unlink None 20 None (B "blogc") (B "blogc-runserver")); vm_compute; reflexivity|].
  split; [intros l E; assert (X : s_tags (c_st y_site) = None) by (vm_compute; reflexivity); rewrite X in E; discriminate E|].
  split; [intros l E; assert (X : s_posts (c_st y_site) = Some [B "a"; B "b"]) by (vm_compute; reflexivity); rewrite X in E; injection E as <-; intros [X'|[X'|[]]]; discriminate X'|].
  split; [intros l E; assert (X : s_pages (c_st y_site) = None) by (vm_compute; reflexivity); rewrite X in E; discriminate E|].
  split. { intros f Hf X. apply y_input in Hf. revert Hf X. generalize (f_path f), (f_time f). clear. intros p t Hf. cbn [In] in Hf.
    repeat (destruct Hf as [Hf|Hf]; [injection Hf as <- _; vm_compute; discriminate|]). destruct Hf. }
  split; [intro done; vm_compute; reflexivity|].
  split; [exact y_nameable|]. split; [exact y_apart|]. split; [apply l_now; vm_compute; reflexivity|]. split; [exact y_counted|].
  split. { apply C89_fresh. intros rule n d P. apply y_products in P. revert P. generalize (absolute y_site n). apply Forall_forall. repeat (constructor; [vm_compute; reflexivity|]). constructor. }
  eexists. split; [vm_compute; reflexivity|]. split; [vm_compute; reflexivity|]. split; vm_compute; reflexivity.
Qed.
(* the tools of the example are as the theorem asks *)
Example C95_example_tools :
  (forall b t, y_read b = Some t -> utf8 t) /\ (forall w p q, q <> p -> s_stat (y_unlink w p) q = s_stat w q /\ s_file (y_unlink w p) q = s_file w q) /\
  runs_blogc s_stat s_file y_read (fun t => t) (fun _ _ _ => None) (fun _ => []) 400 400 (fun _ _ => true) (fun _ _ => true) (B "1") y_now y_site (B "blogc") y_command /\
  tells_blogc s_file y_read (fun t => t) (fun _ _ _ => None) (fun _ => []) 400 400 (fun _ _ => true) (fun _ _ => true) (B "1") y_now (B "blogc") y_command /\
  copies s_stat s_file y_now y_site s_cp.
Proof. split; [exact y_read8|]. split; [exact y_unlinked|]. split; [exact y_runs|]. split; [exact y_tells|exact y_copies]. Qed.
