(* C78, C79: blogc-make from its command line to the site. *)
From Verif Require Import Base Utils Trie Settings BlogcCmd Rules RulesSpec BuildSpec Ctx CtxSpec MakeMain MakeMainSpec.
From Verif Require Import P_Build P_Ctx LoaderProofs.
From Coq Require Import ZArith.
#[local] Open Scope nat_scope.
#[local] Arguments B : simpl never.

(* ---------- the command line ---------- *)
Definition add (o : mopts) (i : item) : mopts :=
  match i with
  | I_dev => MOpts true (m_verbose o) (m_file o) (m_rules o)
  | I_verbose => MOpts (m_dev o) true (m_file o) (m_rules o)
  | I_file f => MOpts (m_dev o) (m_verbose o) (Some f) (m_rules o)
  | I_rule r => MOpts (m_dev o) (m_verbose o) (m_file o) (m_rules o ++ [r])
  end.
Lemma plain_word a r o : ~ dashed a -> make_args (a :: r) o = make_args r (MOpts (m_dev o) (m_verbose o) (m_file o) (m_rules o ++ [a])).
Proof.
  intro H. cbn [make_args]. destruct a as [|c a]; [reflexivity|].
  assert (c <> "-"%char) by (intros ->; apply H; eexists; reflexivity).
  destruct c as [[] [] [] [] [] [] [] []]; try reflexivity. congruence.
Qed.
Lemma args_item i a r o : spelled i a -> make_args (a ++ r) o = make_args r (add o i).
Proof.
  intros [| |f|f Hf|s Hs]; cbn [app add]; try reflexivity.
  - destruct f as [|c f]; [congruence|]. reflexivity.
  - exact (plain_word r o Hs).
Qed.
Lemma args_line l a : line l a -> forall r o, make_args (a ++ r) o = make_args r (fold_left add l o).
Proof.
  induction 1 as [|i l a r' H Hl IH]; intros r o; [reflexivity|]. rewrite <- app_assoc, (args_item _ _ H), IH. reflexivity.
Qed.

Notation o0 := (MOpts false false None []).
Lemma added_rules l o : m_rules (fold_left add l o) = m_rules o ++ rules_of l.
Proof.
  revert o. induction l as [|i l IH]; intro o; cbn [fold_left]; [rewrite app_nil_r; reflexivity|]. rewrite IH. unfold rules_of. cbn [flat_map].
  destruct i; cbn [add m_rules app]; try reflexivity. rewrite <- app_assoc. reflexivity.
Qed.
Lemma added_dev l o : m_dev (fold_left add l o) = true <-> m_dev o = true \/ wants_dev l.
Proof.
  revert o. unfold wants_dev. induction l as [|i l IH]; intro o; cbn [fold_left In]; [tauto|]. rewrite IH.
  destruct i; cbn [add m_dev]; intuition congruence.
Qed.
Lemma added_file l : forall o, (forall f, ~ In (I_file f) l) -> m_file (fold_left add l o) = m_file o.
Proof.
  induction l as [|i l IH]; intros o H; [reflexivity|]. cbn [fold_left]. rewrite IH.
  - destruct i; try reflexivity. exfalso. eapply H. left. reflexivity.
  - intros f Hf. apply (H f). right. exact Hf.
Qed.
Lemma the_file l f : blogcfile_of l f -> match m_file (fold_left add l o0) with Some f => f | None => B "blogcfile" end = f.
Proof.
  intros [l' H|l' g r H].
  - rewrite added_file by exact H. reflexivity.
  - rewrite fold_left_app. cbn [fold_left]. rewrite added_file by exact H. reflexivity.
Qed.
Lemma some_file l : exists f, blogcfile_of l f.
Proof.
  induction l as [|i l (f & IH)]; [exists (B "blogcfile"); constructor; intros f []|].
  inversion IH as [l' H|l' g r H]; subst.
  - destruct i as [| |g|s]; try (exists (B "blogcfile"); constructor; intros f [X|X]; [discriminate|exact (H f X)]).
    exists g. exact (@BF_given [] g l H).
  - exists f. exact (@BF_given (i :: l') f r H).
Qed.

Section Run.
Variable W : Type.
Variable stat : W -> bytes -> option (Z * Z).
Variable look_at : W -> bytes -> node.
Variable contents : W -> bytes -> option bytes.
Variable getcwd : W -> option bytes.
Variable mkstemp : W -> settings -> W * option bytes.
Variable unlink : W -> bytes -> W.
Variable getenv : bytes -> option bytes.
Variable access : bytes -> bool.
Variable command : W -> bytes -> bytes -> W * cmd_result.
Variable cp : W -> fctx -> fctx -> W * nat.
Variable rm : W -> bytes -> fctx -> W * nat.
Variable helper : bytes -> ctx -> option (trie bytes) -> W -> W * nat.
Notation blogc_make := (make_main stat look_at contents getcwd mkstemp unlink getenv access command cp rm helper).
Notation reads fuel argv0 := (ctx_new stat look_at contents getcwd mkstemp unlink (getenv (B "OUTPUT_DIR")) fuel None
  (find_binary getenv access argv0 (B "blogc") (B "BLOGC")) (find_binary getenv access argv0 (B "blogc-runserver") (B "BLOGC_RUNSERVER"))).
Notation exec := (executor stat command cp rm helper).
Notation make_only c := (on (look c (B "run_from_make")) /\ getenv (B "MAKEFLAGS") = None).

(* ------------------------------------------------------------------------- C78 *)
(* A documented command line: the rules it names, in this order, or all, are run for the
   site of the blogcfile it names, with -D if it is given anywhere, and blogc-make returns
   their status. Without a site, or outside of make where that is asked for, none is run. *)
Theorem C78_line_partial fuel argv0 items args file w w1 r : line items args -> blogcfile_of items file ->
  reads fuel argv0 w file = (w1, r) ->
  match r with
  | Ok None => blogc_make fuel argv0 args w = (w1, Said_error, Ok 1)
  | Ok (Some c0) => exists c, site_with (wants_dev items) c0 c /\
      (make_only c -> blogc_make fuel argv0 args w = (free_internal unlink w1 c, Said_error, Ok 1)) /\
      (~ make_only c -> forall w2 rv, exec c (rules_to_run items) 0 w1 = (w2, Ok rv) ->
        blogc_make fuel argv0 args w = (free_internal unlink w2 c, Said_nothing, Ok rv))
  | UB | OutOfFuel => True
  end.
Proof.
  intros L F R. pose proof (args_line L [] o0) as A. rewrite app_nil_r in A. cbn [make_args] in A.
  destruct r as [[c0|]| |]; try exact I.
  - exists (set_dev (m_dev (fold_left add items o0)) c0). split; [|split].
    + unfold site_with. repeat split; cbn [set_dev c_exec e_dev]; rewrite added_dev; cbn; intuition congruence.
    + intros [M1 M2]. unfold make_main. rewrite A, (the_file F), R, M2. cbv zeta.
      replace (str_to_bool _) with true; [reflexivity|]. symmetry. unfold look_str. destruct M1 as (x & E & I). rewrite E.
      apply (enabled_spec (trie_insert trie_new (B "K") x) (B "K")). exists x. split; [reflexivity|exact I].
    + intros M w2 rv E. unfold make_main. rewrite A, (the_file F), R. cbv zeta.
      rewrite added_rules. cbn [m_rules app]. fold (rules_to_run items). rewrite E.
      match goal with |- context[if ?b then _ else _] => assert (X : b = false); [|rewrite X; reflexivity] end.
      apply Bool.andb_false_iff. destruct (getenv (B "MAKEFLAGS")) eqn:G; [right; reflexivity|]. left.
      apply Bool.not_true_is_false. intro T. apply M. split; [|reflexivity]. unfold look_str in T.
      destruct (look _ (B "run_from_make")) as [x|] eqn:X; [|discriminate T]. exists x. split; [reflexivity|].
      destruct (proj1 (enabled_spec (trie_insert trie_new (B "K") x) (B "K")) T) as (y & Y & I). cbn in Y. injection Y as <-. exact I.
  - unfold make_main. rewrite A, (the_file F), R. reflexivity.
Qed.

(* -h, -v and what is no option end it before anything is read or changed; what follows is
   not looked at. *)
Theorem C78_ends fuel argv0 items args rest w : line items args ->
  blogc_make fuel argv0 (args ++ B "-h" :: rest) w = (w, Said_help, Ok 0) /\
  blogc_make fuel argv0 (args ++ B "-v" :: rest) w = (w, Said_version, Ok 0) /\
  forall a, unknown_option a -> blogc_make fuel argv0 (args ++ a :: rest) w = (w, Said_usage, Ok 1).
Proof.
  intro L. unfold make_main. split; [|split].
  - rewrite (args_line L). reflexivity.
  - rewrite (args_line L). reflexivity.
  - intros a [(s & ->) U]. rewrite (args_line L). cbn [make_args]. destruct s as [|c s]; [reflexivity|].
    specialize (U c s eq_refl).
    assert (N : forall x, In x (B "hvDVf") -> (c == x) = false).
    { intros x Hx. apply Bool.not_true_is_false. intro E. apply eqb_true in E. subst. exact (U Hx). }
    rewrite !N by (vm_compute; tauto). reflexivity.
Qed.

(* Not true: that a command line which is not documented is refused. A last -f without a
   name is ignored, and so is what follows the letter of an option without a value. *)
Theorem C78_refuted : exists args, (forall items, ~ line items args) /\ ~ In (B "-h") args /\ ~ In (B "-v") args /\
  (forall a, In a args -> ~ unknown_option a) /\
  forall fuel argv0 w, blogc_make fuel argv0 args w = blogc_make fuel argv0 [] w.
Proof.
  exists [B "-f"]. split; [|split; [|split; [|split]]].
  - intros items L. inversion L as [|i l a r S L' E1 E2]; subst. inversion S; subst; try discriminate.
    + destruct f; [congruence|discriminate].
    + cbn [app] in E2. injection E2 as -> ->. match goal with H : ~ dashed _ |- _ => apply H end. eexists. reflexivity.
  - intros [X|[]]. discriminate.
  - intros [X|[]]. discriminate.
  - intros a [<-|[]] [_ U]. apply (U "f"%char [] eq_refl). vm_compute. tauto.
  - reflexivity.
Qed.
Theorem C78_ignored fuel argv0 rest items args w : line items args -> forall more,
  blogc_make fuel argv0 (args ++ (B "-D" ++ more) :: rest) w = blogc_make fuel argv0 (args ++ B "-D" :: rest) w /\
  blogc_make fuel argv0 (args ++ (B "-V" ++ more) :: rest) w = blogc_make fuel argv0 (args ++ B "-V" :: rest) w.
Proof. intros L more. unfold make_main. rewrite !(args_line L). split; reflexivity. Qed.

(* ------------------------------------------------------------------------- C79 *)
Notation rules_table := (build_rules stat command cp).
Lemma find_build r : In r rules_table -> find_rule stat command cp rm helper (r_name r) = Some (fun c _ w => rule_execute c r w).
Proof. intro H. unfold build_rules in H. repeat (destruct H as [<-|H]; [reflexivity|]). destruct H. Qed.
Lemma build_names : map (@r_name W) rules_table = builds. Proof. reflexivity. Qed.
Lemma cut_app n r : ~ In ":"%char n -> cut ":"%char (n ++ ":"%char :: r) = Some (n, r).
Proof.
  induction n as [|c n IH]; intro H; cbn [app cut]; [rewrite eqb_refl; reflexivity|].
  replace (c == ":"%char) with false by (symmetry; apply eqb_false; intros ->; apply H; left; reflexivity). rewrite IH by (intro X; apply H; right; exact X). reflexivity.
Qed.
Lemma cut_none n : ~ In ":"%char n -> cut ":"%char n = None.
Proof.
  induction n as [|c n IH]; intro H; cbn [cut]; [reflexivity|].
  replace (c == ":"%char) with false by (symmetry; apply eqb_false; intros ->; apply H; left; reflexivity). rewrite IH by (intro X; apply H; right; exact X). reflexivity.
Qed.
Lemma split_asks s n : asks_for s n -> fst (split_rule s) = n.
Proof. intros [H [->|(r & ->)]]; unfold split_rule; [rewrite cut_none by exact H|rewrite cut_app by exact H]; reflexivity. Qed.

Section Built.
Variable c : ctx.
Variable answer : option bytes -> option bytes.
Variable good : W -> Prop.
Hypothesis K : steady command cp good c answer.
Hypothesis P : physical stat command cp good c answer.
Hypothesis Hok : site_ok c.
Hypothesis A : answers command good c answer.
Notation current w rule := (forall n d, product c answer rule n d -> up_to_date stat w (absolute c n) d).

Lemma run_rules rs : incl rs rules_table -> forall w w', good w -> run_all (rule_execute c) rs w = (w', Ok 0) ->
  later stat w w' /\ good w' /\ forall r, In r rs -> current w' (r_name r).
Proof.
  induction rs as [|r rs IH]; intros Hi w w' Hw H; cbn [run_all] in H.
  - inv H. split; [apply later_refl|]. split; [exact Hw|]. intros r [].
  - destruct (rule_execute c r w) as [w1 x] eqn:Er. destruct x as [[|x]| |]; try discriminate.
    destruct (C67_rule K P Hok A Hw (Hi r (or_introl eq_refl)) Er) as (L1 & G1 & U1).
    destruct (IH (fun r' Hr => Hi r' (or_intror Hr)) w1 w' G1 H) as (L2 & G2 & U2).
    split; [eapply later_trans; eassumption|]. split; [exact G2|]. intros r' [<-|Hj] n d Hp; [apply (up_later L2); apply U1; exact Hp|eapply U2; eassumption].
Qed.
Lemma run_requests l : (forall s, In s l -> exists n, asks_for s n /\ (n = B "all" \/ In n builds)) ->
  forall w w' rv, good w -> exec c l rv w = (w', Ok 0) -> later stat w w' /\ good w' /\ forall rule, wanted l rule -> In rule builds -> current w' rule.
Proof.
  induction l as [|s l IH]; intros Hl w w' rv Hw H; cbn [executor] in H.
  - inv H. split; [apply later_refl|]. split; [exact Hw|]. intros rule (x & n & [] & _).
  - destruct (Hl s (or_introl eq_refl)) as (n & Hn & Hb). pose proof (split_asks Hn) as En.
    destruct (split_rule s) as [name args]. cbn [fst] in En. subst name.
    assert (X : exists w1, (later stat w w1 /\ good w1 /\ forall rule, (n = B "all" \/ n = rule) -> In rule builds -> current w1 rule) /\ exec c l 0 w1 = (w', Ok 0)).
    { destruct Hb as [->|Hb].
      - change (find_rule stat command cp rm helper (B "all")) with (Some (fun c (_ : option (trie bytes)) w => all_exec stat command cp c w)) in H.
        cbv beta iota in H. destruct (all_exec stat command cp c w) as [w1 x] eqn:E. destruct x as [[|x]| |]; try discriminate.
        exists w1. split; [|exact H]. destruct (run_rules (incl_refl _) Hw E) as (L & G & U). split; [exact L|]. split; [exact G|].
        intros rule _ Hr. rewrite <- build_names in Hr. apply in_map_iff in Hr. destruct Hr as (r & <- & Hr). apply U. exact Hr.
      - rewrite <- build_names in Hb. apply in_map_iff in Hb. destruct Hb as (r & <- & Hr). rewrite (find_build Hr) in H.
        destruct (rule_execute c r w) as [w1 x] eqn:E. destruct x as [[|x]| |]; try discriminate.
        exists w1. split; [|exact H]. destruct (C67_rule K P Hok A Hw Hr E) as (L & G & U). split; [exact L|]. split; [exact G|].
        intros rule [X|<-] _; [|exact U]. exfalso. clear - Hr X. unfold build_rules in Hr.
        repeat (destruct Hr as [<-|Hr]; [discriminate X|]). destruct Hr. }
    destruct X as (w1 & (L1 & G1 & U1) & E). destruct (IH (fun s Hs => Hl s (or_intror Hs)) w1 w' 0 G1 E) as (L2 & G2 & U2).
    split; [eapply later_trans; eassumption|]. split; [exact G2|]. intros rule (x & m & [<-|Hx] & Hm & Hr0) Hr n' d Hp.
    + apply (up_later L2). apply (U1 rule); [|exact Hr|exact Hp]. pose proof (split_asks Hm) as E1. pose proof (split_asks Hn) as E2.
      replace n with m by congruence. exact Hr0.
    + apply (U2 rule); [exists x, m; auto|exact Hr|exact Hp].
Qed.
End Built.

Lemma holds_dev dev c c' w n m : (c' = set_dev dev c \/ c = set_dev dev c') -> holds stat look_at w c n m -> holds stat look_at w c' n m.
Proof.
  intros H. assert (A : forall n, absolute c' n = absolute c n) by (intro x; destruct H; subst; reflexivity).
  induction 1 as [n S1 S2|n names e m S1 S2 S3 S4 S5 _ IH].
  - apply H_file; rewrite A; assumption.
  - eapply H_folder; rewrite ?A; eassumption.
Qed.
Lemma made_dev env dev c w w1 f : made stat look_at contents getcwd mkstemp env w w1 f c -> made stat look_at contents getcwd mkstemp env w w1 f (set_dev dev c).
Proof.
  intros (abs & content & st & atom & M1 & M2 & M3 & (S1 & S2 & S3 & S4 & S5 & S6 & S7 & S8 & S9 & S10 & S11 & S12) & M5).
  exists abs, content, st, atom. split; [exact M1|]. split; [exact M2|]. split; [exact M3|]. split; [|exact M5].
  unfold site. do 11 (split; [assumption|]). intro m. change (c_copy (set_dev dev c)) with (c_copy c). rewrite (S12 m).
  split; intros (l & n & E1 & E2 & E3); exists l, n; (split; [exact E1|]); (split; [exact E2|]); eapply holds_dev; [|exact E3| |exact E3]; eauto.
Qed.

(* When blogc-make, asked to build, returns 0: every file of the rules it was asked for
   exists, and is at least as recent as every file it depends on was when the blogcfile
   had been read. *)
Theorem C79_built fuel argv0 items args file w w' s : line items args -> blogcfile_of items file ->
  (forall s, In s (rules_to_run items) -> exists n, asks_for s n /\ (n = B "all" \/ In n builds)) ->
  (forall w p q, q <> p -> stat (unlink w p) q = stat w q) ->
  blogc_make fuel argv0 args w = (w', s, Ok 0) ->
  exists w1 c, made stat look_at contents getcwd mkstemp (getenv (B "OUTPUT_DIR")) w w1 file c /\ (e_dev (c_exec c) = true <-> wants_dev items) /\
  forall answer good, steady command cp good c answer -> physical stat command cp good c answer -> answers command good c answer -> good w1 ->
  (forall l, s_posts (c_st c) = Some l -> ~ In [] l) -> (forall l, s_pages (c_st c) = Some l -> ~ In [] l) ->
  (forall f, In f (inputs c) -> stat w1 (f_path f) <> None) ->
  forall rule n d, wanted (rules_to_run items) rule -> In rule builds -> product c answer rule n d ->
  (c_atom_tmp c = true -> absolute c n <> f_path (c_atom c)) ->
  exists out, stat w' (absolute c n) = Some out /\ forall f t, In f d -> stat w1 (f_path f) = Some t -> not_later t out.
Proof.
  intros L F Rl Un H. destruct (reads fuel argv0 w file) as [w1 r] eqn:R. exists w1.
  pose proof (args_line L [] o0) as Ar. rewrite app_nil_r in Ar. cbn [make_args] in Ar.
  unfold make_main in H. rewrite Ar, (the_file F), R in H. destruct r as [[c0|]| |]; try (apply (f_equal snd) in H; discriminate H). cbv zeta in H.
  set (c := set_dev _ c0) in H. exists c.
  assert (M : made stat look_at contents getcwd mkstemp (getenv (B "OUTPUT_DIR")) w w1 file c) by exact (made_dev _ (C71_context R)).
  split; [exact M|]. split; [subst c; cbn [set_dev c_exec e_dev]; rewrite added_dev; cbn; intuition congruence|].
  intros answer good K P A Hg N1 N2 I rule n d Hw Hb Hp Ht.
  rewrite added_rules in H. cbn [m_rules app] in H. fold (rules_to_run items) in H.
  match type of H with (if ?b then _ else _) = _ => destruct b; [apply (f_equal snd) in H; discriminate H|] end.
  destruct (exec c (rules_to_run items) 0 w1) as [w2 x] eqn:E.
  destruct x as [rv| |]; try (apply (f_equal snd) in H; discriminate H).
  assert (rv = 0 /\ w' = free_internal unlink w2 c) as [-> ->] by (split; congruence).
  assert (Hok : site_ok c) by exact (C71_site_ok R N1 N2 I).
  destruct (run_requests K P Hok A Rl Hg E) as (_ & _ & U). destruct (U rule Hw Hb n d Hp) as (out & Eo & Fo).
  exists out. split.
  - unfold free_internal. destruct (c_atom_tmp c); [|exact Eo]. rewrite Un; [exact Eo|apply Ht; reflexivity].
  - intros f t Hf Et. replace t with (f_time f); [apply Fo; exact Hf|].
    destruct M as (abs & content & st & atom & _ & _ & _ & Si & _). destruct (site_inputs Si (product_inputs Hp Hf)) as [m Lk].
    destruct (looked_fresh Lk Et) as [_ X]. exact X.
Qed.
End Run.
Print Assumptions C78_line_partial.
Print Assumptions C78_ends.
Print Assumptions C78_ignored.
Print Assumptions C78_refuted.
Print Assumptions C79_built.

(* ---- examples, on the disk of P_Ctx ---- *)
Example C78_ex : line [I_rule (B "index"); I_file (B "a"); I_dev; I_file (B "b"); I_rule (B "posts")]
    [B "index"; B "-fa"; B "-D"; B "-f"; B "b"; B "posts"] /\
  blogcfile_of [I_rule (B "index"); I_file (B "a"); I_dev; I_file (B "b"); I_rule (B "posts")] (B "b").
Proof.
  split.
  - assert (N : forall r, match r with "-"%char :: _ => False | _ => True end -> ~ dashed r) by (intros r H (s & ->); exact H).
    apply (L_cons (Sp_rule (N (B "index") I))). apply (@L_cons _ _ [B "-fa"] _ (@Sp_joined (B "a") ltac:(discriminate))).
    apply (L_cons Sp_dev). apply (L_cons (Sp_file (B "b"))). apply (@L_cons _ _ [B "posts"] [] (Sp_rule (N (B "posts") I))). constructor.
  - apply (@BF_given [I_rule (B "index"); I_file (B "a"); I_dev] (B "b") [I_rule (B "posts")]). intros g [X|[]]. discriminate.
Qed.
(* files are copied at time 1000, unless that is before the time of the output *)
Definition x_cp (w : disk) (s o : fctx) : disk * nat :=
  match d_stat w (f_path o) with
  | Some t => if (Z.ltb (fst t) 1000) then (d_put w (f_path o) ((1000, 0)%Z, inl []), 0) else (w, 1)
  | None => (d_put w (f_path o) ((1000, 0)%Z, inl []), 0)
  end.
Definition x_make (args : list bytes) (w : disk) : disk * said * res nat :=
  make_main d_stat d_look d_contents (fun _ => Some (B "/s")) d_mkstemp d_unlink (fun _ => None) (fun _ => false)
    (fun w _ _ => (w, CmdError)) x_cp (fun w _ _ => (w, 1)) (fun _ _ _ w => (w, 1)) 20 (Some (B "blogc-make")) args w.
Example C79_ran : exists w', x_make [B "-D"; B "copy"] d_site = (w', Said_nothing, Ok 0) /\
  d_stat w' (B "/s/_build/static/sub/b") = Some (1000, 0)%Z /\ d_stat w' (B "/tmp/blogc-make_0") = None.
Proof. eexists. split; [|split]; vm_compute; reflexivity. Qed.
(* the site that is read, and the conditions of C79 *)
Definition x_site : option ctx := option_map (set_dev true) (match snd (d_new None (B "blogc") (B "blogc-runserver") d_site (B "blogcfile")) with Ok c => c | _ => None end).
Example C79_ex : exists c w1, x_site = Some c /\ fst (d_new None (B "blogc") (B "blogc-runserver") d_site (B "blogcfile")) = w1 /\
  steady (fun w _ _ => (w, CmdError)) x_cp anywhere c (fun _ => None) /\ physical d_stat (fun w _ _ => (w, CmdError)) x_cp anywhere c (fun _ => None) /\
  answers (fun (w : disk) _ _ => (w, CmdError)) anywhere c (fun _ => None) /\
  (forall f, In f (inputs c) -> d_stat w1 (f_path f) <> None) /\
  exists n d, product c (fun _ => None) (B "copy") n d /\ absolute c n = B "/s/_build/static/sub/b" /\ map (@f_path) d = [B "/s/blogcfile"; B "/s/static/sub/b"].
Proof.
  assert (E : exists c, x_site = Some c) by (vm_compute; eexists; reflexivity).
  destruct E as (c & E). exists c. eexists. split; [exact E|]. split; [reflexivity|].
  assert (T : forallb (fun f => Z.ltb (fst (f_time f)) 1000) (inputs c) = true).
  { transitivity (forallb (fun f => Z.ltb (fst (f_time f)) 1000) (match x_site with Some c => inputs c | None => [] end)); [rewrite E; reflexivity|vm_compute; reflexivity]. }
  split; [split; intros; exact I|]. split; [|split; [|split]].
  - split.
    + intros. apply later_refl.
    + intros n s o w _ _ _. unfold x_cp. destruct (d_stat w (f_path o)) as [t|] eqn:Et.
      * destruct (Z.ltb_spec (fst t) 1000); cbn [fst]; [|apply later_refl]. apply d_put_later. intros t0 Et0. unfold not_later. cbn. assert (t0 = t) by congruence. subst. lia.
      * cbn [fst]. apply d_put_later. intros t0 Et0. congruence.
    + intros n gv lv listing entry template o sources first w w' _ _ _ H. unfold run_blogc in H. destruct (paths _); [|discriminate|discriminate].
      destruct (exec_blogc _ _ _ _ _ _ _ _ _). discriminate.
    + intros n s o w w' _ _ _ H. unfold written, up_to_date. assert (S : d_stat w' (f_path o) = Some (1000, 0)%Z).
      { unfold x_cp in H. destruct (d_stat w (f_path o)) as [t|]; [destruct (Z.ltb _ _); [|discriminate]|]; inv H; unfold d_stat; rewrite d_get_put, beq_refl; reflexivity. }
      exists (1000, 0)%Z. split; [exact S|]. intros f Hf. rewrite forallb_forall in T. specialize (T f Hf). apply Z.ltb_lt in T. unfold not_later. cbn. lia.
  - assert (Q : exists l, paths (c_posts c) = Ok l).
    { assert (Q : exists l, paths (match x_site with Some c => c_posts c | None => [] end) = Ok l) by (vm_compute; eexists; reflexivity). rewrite E in Q. exact Q. }
    destruct Q as (l & Q). split; [|split]; [| |discriminate]; intros; unfold ask_blogc; rewrite Q; destruct (exec_get_variable _ _ _ _ _ _ _); reflexivity.
  - intros f Hf X.
    assert (C : forallb (fun f => match d_stat (fst (d_new None (B "blogc") (B "blogc-runserver") d_site (B "blogcfile"))) (f_path f) with Some _ => true | None => false end) (inputs c) = true).
    { transitivity (forallb (fun f => match d_stat (fst (d_new None (B "blogc") (B "blogc-runserver") d_site (B "blogcfile"))) (f_path f) with Some _ => true | None => false end)
        (match x_site with Some c => inputs c | None => [] end)); [rewrite E; reflexivity|vm_compute; reflexivity]. }
    rewrite forallb_forall in C. specialize (C f Hf). rewrite X in C. discriminate.
  - assert (G : match x_site with Some c => s_copy (c_st c) <> None /\ c_short_output c = B "_build" /\ c_root c = B "/s" /\ f_path (c_settings c) = B "/s/blogcfile" /\
       exists f, In f (c_copy c) /\ f_short f = B "static/sub/b" /\ f_path f = B "/s/static/sub/b" | None => False end).
    { vm_compute. split; [discriminate|]. do 3 (split; [reflexivity|]). eexists. split; [right; left; reflexivity|]. split; reflexivity. }
    rewrite E in G. destruct G as (G1 & G2 & G3 & G4 & f & G5 & G6 & G7).
    exists (c_short_output c ++ B "/" ++ f_short f), [c_settings c; f]. split; [apply P_copy; assumption|].
    rewrite G2, G6. split; [unfold absolute; rewrite G3; reflexivity|]. cbn [map]. rewrite G4, G7. reflexivity.
Qed.
