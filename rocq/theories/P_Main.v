(* C55, C64, C65: the command line of blogc, what a run touches, and what
   blogc-make's commands mean to blogc. *)
From Verif Require Import Base Utils UtilsProofs Utf8 Utf8Proofs Trie TrieProofs ShSpec Filelist FilelistSpec FilelistProofs
  Template Datetime Loader Renderer SettingsSpec Settings P_Settings BlogcCmd BlogcCmdSpec P_BlogcCmd Main MainSpec.
From Verif Require Utf8Text SourceUtf8 ConfigUtf8.
#[local] Open Scope nat_scope.
#[local] Arguments B : simpl never.

(* ---------- C55: -D ---------- *)
Lemma define_key_rest r : forall j, define_key (S j) r = true <-> Forall (fun x => In x more) r.
Proof.
  induction r as [|c r IH]; intro j; cbn [define_key Nat.eqb]; [split; auto|].
  destruct (is_upper c || is_digit c || (c == "_"%char)) eqn:E; cbn [negb].
  - replace (S j + 1) with (S (j + 1)) by lia. rewrite IH. split.
    + intro H. constructor; [apply more_spec; exact E|exact H].
    + intro H. inv H. assumption.
  - split; [discriminate|]. intro H. inv H. apply more_spec in H2. congruence.
Qed.
Lemma define_key_spec k : define_key 0 k = true <-> valid_name k \/ k = [].
Proof.
  destruct k as [|c r]; cbn [define_key Nat.eqb]; [tauto|].
  destruct (is_upper c) eqn:E; cbn [negb].
  - cbn [Nat.add]. rewrite define_key_rest. split.
    + intro H. left. exists c, r. split; [reflexivity|]. split; [apply letters_spec; exact E|exact H].
    + intros [(c' & r' & H & _ & H')|]; [inv H; exact H'|discriminate].
  - split; [discriminate|]. intros [(c' & r' & H & H' & _)|]; [|discriminate]. inv H.
    apply letters_spec in H'. congruence.
Qed.

Lemma split2_go k v : ~ In "="%char k -> forall tok, split_go "="%char 2 0 tok (k ++ "="%char :: v) = (tok ++ k) :: split_go "="%char 2 1 [] v.
Proof.
  induction k as [|c k IH]; intros H tok; cbn [app split_go].
  - rewrite eqb_refl. cbn. rewrite app_nil_r. reflexivity.
  - assert (E : (c == "="%char) = false) by (apply eqb_neq; intros ->; apply H; left; reflexivity). rewrite E. cbn [andb].
    rewrite IH, <- app_assoc by (intro; apply H; right; assumption). reflexivity.
Qed.
Lemma split2_end v : forall tok, split_go "="%char 2 1 tok v = [tok ++ v].
Proof.
  induction v as [|c v IH]; intro tok; cbn [split_go]; [rewrite app_nil_r; reflexivity|].
  cbn. rewrite andb_false_r, IH, <- app_assoc. reflexivity.
Qed.
Lemma split2_has k v : ~ In "="%char k -> str_split (k ++ "="%char :: v) "="%char 2 = [k; v].
Proof.
  intro H. unfold str_split. destruct (k ++ "="%char :: v) as [|a l] eqn:E; [destruct k; discriminate|].
  rewrite <- E, split2_go by exact H. rewrite split2_end. reflexivity.
Qed.
Lemma split2_none x : ~ In "="%char x -> str_split x "="%char 2 = [] \/ str_split x "="%char 2 = [x].
Proof.
  intro H. destruct x as [|a x]; [left; reflexivity|]. right. unfold str_split.
  assert (A : forall y tok, ~ In "="%char y -> split_go "="%char 2 0 tok y = [tok ++ y]).
  { clear. induction y as [|c y IH]; intros tok H; cbn [split_go]; [rewrite app_nil_r; reflexivity|].
    assert (E : (c == "="%char) = false) by (apply eqb_neq; intros ->; apply H; left; reflexivity). rewrite E. cbn [andb].
    rewrite IH, <- app_assoc by (intro; apply H; right; assumption). reflexivity. }
  rewrite A by exact H. reflexivity.
Qed.
Lemma cut_first (c : ascii) (s : bytes) : (~ In c s) \/ exists a b, s = a ++ c :: b /\ ~ In c a.
Proof.
  induction s as [|x s IH]; [left; intros []|]. destruct (ascii_dec x c) as [->|N].
  - right. exists [], s. split; [reflexivity|intros []].
  - destruct IH as [H|(a & b & -> & H)].
    + left. intros [E|E]; [congruence|contradiction].
    + right. exists (x :: a), b. split; [reflexivity|]. intros [E|E]; [congruence|contradiction].
Qed.
Lemma name_no_eq k : valid_name k \/ k = [] -> ~ In "="%char k.
Proof.
  assert (A : ~ In "="%char more) by (vm_compute; intuition discriminate).
  intros [(c & r & -> & Hc & Hr)| ->]; [|intros []]. intros [->|Hi].
  - apply A. unfold more. apply in_or_app. left. exact Hc.
  - rewrite Forall_forall in Hr. apply A. auto.
Qed.

(* the definitions -D takes, up to the empty name *)
Definition definition (x k v : bytes) : Prop := x = k ++ B "=" ++ v /\ (valid_name k \/ k = []) /\ utf8 x.

Lemma define_spec x conf :
  (exists k v, definition x k v /\ define_var x conf = Ok (inl (trie_insert conf k v)))
  \/ ((forall k v, ~ definition x k v) /\ ((utf8 x /\ define_var x conf = Ok (inr SDefine)) \/ (~ utf8 x /\ define_var x conf = Ok (inr SUtf8)))).
Proof.
  unfold define_var. destruct (validate_exact x) as (b & E & Hb). rewrite E. cbn [rbind].
  destruct b; cbn [negb].
  - assert (Hu : utf8 x) by (apply Hb; reflexivity). destruct (cut_first "="%char x) as [H|(k & v & -> & H)].
    + right. split.
      * intros k v (-> & _). apply H. apply in_or_app. right. left. reflexivity.
      * left. split; [exact Hu|]. destruct (split2_none H) as [->| ->]; reflexivity.
    + rewrite split2_has by exact H. destruct (define_key 0 k) eqn:Ek.
      * left. exists k, v. split; [|reflexivity]. split; [reflexivity|]. split; [apply define_key_spec; exact Ek|exact Hu].
      * right. split; [|left; auto]. intros k' v' (E' & Hk & _).
        assert (k = k').
        { apply name_no_eq in Hk. clear -E' H Hk. change (B "=" ++ v') with ("="%char :: v') in E'.
          revert k' E' Hk. induction k as [|c k IH]; intros [|c' k'] E' Hk; cbn [app] in E'.
          - reflexivity.
          - injection E' as <- _. exfalso. apply Hk. left. reflexivity.
          - injection E' as -> _. exfalso. apply H. left. reflexivity.
          - injection E' as <- E'. f_equal. apply IH; [intro; apply H; right; assumption|exact E'|intro; apply Hk; right; assumption]. }
        subst k'. apply define_key_spec in Hk. congruence.
  - right. split.
    + intros k v (_ & _ & Hu). apply Hb in Hu. discriminate.
    + right. split; [|reflexivity]. intro Hu. apply Hb in Hu. discriminate.
Qed.

Definition with_config (o : opts) (c : trie bytes) : opts :=
  Opts (o_debug o) (o_stdin o) (o_listing o) (o_template o) (o_output o) (o_print o) (o_sources o) (o_entries o) c.

(* C55, up to the empty name and the status for invalid UTF-8: -D x, in two
   arguments or one, defines k as v exactly if x is k=v with a valid (or empty)
   name and valid UTF-8; otherwise blogc stops with an error. *)
Theorem C55_define_partial : forall (x : bytes) (rest : list bytes) (o : opts),
  ((exists k v, definition x k v /\
      parse_args (B "-D" :: x :: rest) o = parse_args rest (with_config o (trie_insert (o_config o) k v)))
   \/ ((forall k v, ~ definition x k v) /\
       parse_args (B "-D" :: x :: rest) o = Ok (inr (if (match utf8_validate x with Ok b => b | _ => false end) then SDefine else SUtf8))))
  /\ (x <> [] -> parse_args ((B "-D" ++ x) :: rest) o = parse_args (B "-D" :: x :: rest) o).
Proof.
  intros x rest o. split.
  - assert (P : parse_args (B "-D" :: x :: rest) o =
      (do r <- define_var x (o_config o) ; match r with inl c => parse_args rest (with_config o c) | inr s => Ok (inr s) end)).
    { change (parse_args (B "-D" :: x :: rest) o) with
        (do y <- set_value "D"%char x o ; match y with inl o => parse_args rest o | inr s => Ok (inr s) end).
      change (set_value "D"%char x o) with (do r <- define_var x (o_config o) ;
        Ok (match r with inl conf => @inl opts stop (with_config o conf) | inr s => inr s end)).
      destruct (define_var x (o_config o)) as [[c|s]| |]; reflexivity. }
    rewrite P. destruct (define_spec x (o_config o)) as [(k & v & H & E)|(H & [(Hu & E)|(Hu & E)])]; rewrite E; cbn [rbind].
    + left. exists k, v. auto.
    + right. split; [exact H|]. apply validate_iff in Hu. rewrite Hu. reflexivity.
    + right. split; [exact H|]. destruct (validate_exact x) as (b & Eb & Hb). rewrite Eb. destruct b; [|reflexivity].
      exfalso. apply Hu. apply Hb. reflexivity.
  - intro Hne. destruct x as [|c x]; [contradiction|]. reflexivity.
Qed.
Print Assumptions C55_define_partial.

Definition no_opts (c : trie bytes) : opts := Opts false false false None None None [] [] c.

(* the full claim is false: a definition without a name is taken ... *)
Theorem C55_refuted : exists x o, parse_args [B "-D"; x] (no_opts trie_new) = Ok (inl o)
  /\ trie_lookup (o_config o) [] = Some (B "foo") /\ ~ exists k v, x = k ++ B "=" ++ v /\ valid_name k.
Proof.
  exists (B "=foo"). eexists. split; [vm_compute; reflexivity|]. split; [vm_compute; reflexivity|].
  intros (k & v & E & c & r & -> & Hc & _). cbn [app] in E. injection E as E _. subst c. vm_compute in Hc. intuition discriminate.
Qed.
Print Assumptions C55_refuted.

(* ... and an error that stops blogc leaves its status at zero *)
Definition bad_utf8 : bytes := B "A=" ++ [ascii_of_N 255].
Theorem C55_status_refuted : forall contents mktime strftime funcs sfuel rfuel mkdir fopen stored version rest stdin,
  blogc_main contents mktime strftime funcs sfuel rfuel mkdir fopen stored version (B "-D" :: bad_utf8 :: rest) stdin
  = Ok ([EError], 0).
Proof.
  intros. unfold blogc_main.
  destruct (C55_define_partial bad_utf8 rest (Opts false false false None None None [] [] (trie_insert trie_new (B "BLOGC_VERSION") version)))
    as [[(k & v & (_ & _ & Hu) & _)|(_ & E)] _].
  - apply validate_iff in Hu. vm_compute in Hu. discriminate.
  - rewrite E. vm_compute (utf8_validate bad_utf8). reflexivity.
Qed.
Print Assumptions C55_status_refuted.
Example C55_example : exists o, parse_args [B "-D"; B "A_1=b=c"; B "-DX="; B "-l"; B "a.txt"] (no_opts trie_new) = Ok (inl o)
  /\ trie_lookup (o_config o) (B "A_1") = Some (B "b=c") /\ trie_lookup (o_config o) (B "X") = Some []
  /\ o_listing o = true /\ o_sources o = [B "a.txt"].
Proof. eexists. split; [vm_compute; reflexivity|]. vm_compute. auto. Qed.
Example C55_wrong : parse_args [B "-D"; B "a=b"] (no_opts trie_new) = Ok (inr SDefine)
  /\ parse_args [B "-D"; B "A-B=b"] (no_opts trie_new) = Ok (inr SDefine) /\ parse_args [B "-D"; B "AB"] (no_opts trie_new) = Ok (inr SDefine).
Proof. vm_compute. auto. Qed.

(* ---------- C65: what blogc-make's commands mean to blogc ---------- *)
Definition insert_all (c : trie bytes) (l : list (bytes * bytes)) : trie bytes :=
  fold_left (fun c kv => trie_insert c (fst kv) (snd kv)) l c.
Lemma insert_all_app c l l' : insert_all c (l ++ l') = insert_all (insert_all c l) l'.
Proof. apply fold_left_app. Qed.
Lemma insert_all_lookup l n : no_nul n -> Forall (fun kv => no_nul (fst kv)) l -> forall c,
  trie_lookup (insert_all c l) n = or (last_def n l) (trie_lookup c n).
Proof.
  intros Hn. induction 1 as [|[k v] l Hk Hl IH]; intro c; [reflexivity|]. cbn [insert_all fold_left fst snd last_def].
  change (fold_left (fun c kv => trie_insert c (fst kv) (snd kv)) l (trie_insert c k v)) with (insert_all (trie_insert c k v) l).
  rewrite IH, trie_lookup_insert by assumption. destruct (last_def n l); [reflexivity|]. destruct (beq k n); reflexivity.
Qed.
Lemma last_def_app n l l' : last_def n (l ++ l') = or (last_def n l') (last_def n l).
Proof.
  induction l as [|[k v] l IH]; cbn [app last_def]; [destruct (last_def n l'); reflexivity|]. rewrite IH.
  destruct (last_def n l'); reflexivity.
Qed.
Lemma last_def_in n l v : last_def n l = Some v -> In (n, v) l.
Proof.
  induction l as [|[k w] l IH]; cbn [last_def]; [discriminate|]. destruct (last_def n l) as [x|].
  - intro H. right. apply IH. exact H.
  - destruct (beq_spec k n) as [->|]; [|discriminate]. intro H. injection H as ->. left. reflexivity.
Qed.
Lemma last_def_none n l : last_def n l = None -> forall v, ~ In (n, v) l.
Proof.
  induction l as [|[k w] l IH]; cbn [last_def]; [intros _ v []|]. destruct (last_def n l) as [x|]; [discriminate|].
  destruct (beq_spec k n) as [->|Hne]; [discriminate|]. intros _ v [E|Hi]; [injection E as -> ->; contradiction|].
  eapply IH; eauto.
Qed.
Lemma last_def_pairs t n : (match t with Some t => wf t | None => True end) -> no_nul n -> last_def n (pairs t) = in_trie t n.
Proof.
  destruct t as [t|]; [|reflexivity]. intros Hw Hn. cbn [in_trie].
  assert (A : forall v, In (n, v) (pairs (Some t)) <-> trie_lookup t n = Some v).
  { intro v. unfold pairs. rewrite in_flat_map. split.
    - intros ([k d] & Hi & Hv). apply (foreach_lookup Hw) in Hi. destruct Hi as (Hk & w & -> & El). cbn [fst snd] in Hv.
      destruct Hv as [E|[]]. injection E as -> ->. exact El.
    - intro El. exists (n, Some v). split; [apply (foreach_lookup Hw); split; [exact Hn|eauto]|]. left. reflexivity. }
  destruct (last_def n (pairs (Some t))) as [v|] eqn:E.
  - apply last_def_in in E. symmetry. apply A. exact E.
  - destruct (trie_lookup t n) as [v|] eqn:El; [|reflexivity]. exfalso. eapply last_def_none; [exact E|]. apply A. reflexivity.
Qed.

Definition good_def (kv : bytes * bytes) : Prop := (valid_name (fst kv) \/ fst kv = []) /\ utf8 (fst kv ++ B "=" ++ snd kv).
Lemma parse_define k v rest o : good_def (k, v) ->
  parse_args (define k v ++ rest) o = parse_args rest (with_config o (trie_insert (o_config o) k v)).
Proof.
  intros [Hk Hu]. cbn [fst snd] in *. unfold define. cbn [app].
  change (parse_args (B "-D" :: (k ++ B "=" ++ v) :: rest) o) with
        (do y <- set_value "D"%char (k ++ B "=" ++ v) o ; match y with inl o => parse_args rest o | inr s => Ok (inr s) end).
  change (set_value "D"%char (k ++ B "=" ++ v) o) with (do r <- define_var (k ++ B "=" ++ v) (o_config o) ;
        Ok (match r with inl conf => @inl opts stop (with_config o conf) | inr s => inr s end)).
  unfold define_var. rewrite (proj2 (validate_iff _) Hu). cbn [rbind negb].
  change (k ++ B "=" ++ v) with (k ++ "="%char :: v).
  rewrite split2_has by (apply name_no_eq; exact Hk). rewrite (proj2 (define_key_spec k) Hk). reflexivity.
Qed.
Lemma parse_defines l : Forall good_def l -> forall rest o,
  parse_args (defines l ++ rest) o = parse_args rest (with_config o (insert_all (o_config o) l)).
Proof.
  induction 1 as [|[k v] l Hk Hl IH]; intros rest o; [destruct o; reflexivity|].
  unfold defines. cbn [flat_map fst snd]. rewrite <- app_assoc, (parse_define _ _ Hk).
  change (flat_map (fun kv => define (fst kv) (snd kv)) l) with (defines l). rewrite IH. reflexivity.
Qed.

(* the definitions of a call *)
Definition call_defs (k : call) : list (bytes * bytes) :=
  (match k_tags k with Some t => [(B "MAKE_TAGS", spaced t)] | None => [] end) ++ k_vars k
  ++ (if k_dev k then [(B "MAKE_ENV_DEV", B "1"); (B "MAKE_ENV", B "dev")] else []).
Definition call_env (k : call) : list bytes := match k_locale k with Some l => [B "LC_ALL=" ++ l] | None => [] end.
Definition call_args (k : call) : list bytes :=
  defines (call_defs k) ++ opt (B "-p") (k_print k) ++ (if k_listing k then B "-l" :: opt (B "-e") (k_entry k) else [])
  ++ opt (B "-t") (k_template k) ++ opt (B "-o") (k_output k) ++ (if k_stdin k then [B "-i"] else []).
Lemma call_split k : call_words k = call_env k ++ k_bin k :: call_args k.
Proof.
  unfold call_words, call_args, call_defs, call_env. f_equal. cbn [app]. f_equal. unfold defines. rewrite !flat_map_app, <- !app_assoc.
  destruct (k_tags k), (k_dev k); reflexivity.
Qed.

Lemma parse_call k c : Forall good_def (call_defs k) ->
  parse_args (call_args k) (no_opts c) = Ok (inl (Opts false (k_stdin k) (k_listing k) (k_template k) (k_output k) (k_print k) []
    (if k_listing k then match k_entry k with Some e => [e] | None => [] end else []) (insert_all c (call_defs k)))).
Proof.
  intro H. unfold call_args. rewrite parse_defines by exact H.
  destruct (k_print k), (k_listing k), (k_entry k), (k_template k), (k_output k), (k_stdin k); reflexivity.
Qed.

(* UTF-8 of a definition *)
Lemma utf8_app x y : utf8 x -> utf8 y -> utf8 (x ++ y).
Proof.
  intros (a & Ha & ->) (b & Hb & ->). exists (a ++ b). split; [apply Forall_app; auto|]. rewrite map_app, concat_app. reflexivity.
Qed.
Lemma utf8_ascii x : Forall (fun c => (nb c < 128)%N) x -> utf8 x.
Proof.
  intro H. exists (map nb x). split.
  - apply Forall_forall. intros n Hn. apply in_map_iff in Hn. destruct Hn as (c & <- & Hc). rewrite Forall_forall in H.
    specialize (H _ Hc). left. lia.
  - induction H as [|c x Hc Hx IH]; [reflexivity|]. cbn [map concat]. rewrite <- IH. unfold encode.
    apply N.ltb_lt in Hc. rewrite Hc, by_nb. reflexivity.
Qed.
Lemma utf8_name k : valid_name k \/ k = [] -> utf8 k.
Proof.
  intro H. apply utf8_ascii.
  assert (A : forallb (fun c => N.ltb (nb c) 128) more = true) by (vm_compute; reflexivity). rewrite forallb_forall in A.
  assert (A' : forall c, In c more -> (nb c < 128)%N) by (intros c Hc; apply N.ltb_lt; auto).
  destruct H as [(c & r & -> & Hc & Hr)| ->]; [|constructor]. constructor.
  - apply A'. unfold more. apply in_or_app. left. exact Hc.
  - rewrite Forall_forall in *. auto.
Qed.
Lemma good_def_intro k v : (valid_name k \/ k = []) -> utf8 v -> good_def (k, v).
Proof.
  intros Hk Hv. split; [exact Hk|]. cbn [fst snd]. apply utf8_app; [apply utf8_name; exact Hk|].
  apply utf8_app; [|exact Hv]. apply utf8_ascii. constructor; [vm_compute; reflexivity|constructor].
Qed.

(* variables with valid (or empty) names and UTF-8 values *)
Definition named (t : option (trie bytes)) : Prop :=
  match t with
  | Some t => wf t /\ forall k v, no_nul k -> trie_lookup t k = Some v -> (valid_name k \/ k = []) /\ no_nul v /\ utf8 v
  | None => True
  end.
Lemma named_ok t : named t -> vars_ok t.
Proof.
  destruct t as [t|]; [|exact (fun H => H)]. intros [Hw H]. split; [exact Hw|]. intros k v Hk El. destruct (H _ _ Hk El) as (A & B0 & _).
  split; [apply valid_name_plain; exact A|exact B0].
Qed.
Lemma named_wf t : named t -> match t with Some t => wf t | None => True end.
Proof. destruct t; [intros [H _]; exact H|auto]. Qed.
Lemma named_defs t : named t -> Forall good_def (pairs t).
Proof.
  destruct t as [t|]; [|constructor]. intros [Hw H]. apply Forall_forall. intros [k v] Hi. unfold pairs in Hi. apply in_flat_map in Hi.
  destruct Hi as ([k' d] & Hi & Hv). apply (foreach_lookup Hw) in Hi. destruct Hi as (Hk & w & -> & El). destruct Hv as [E|[]].
  cbn [fst snd] in E. injection E as -> ->. destruct (H _ _ Hk El) as (A & _ & B0). apply good_def_intro; assumption.
Qed.
Lemma good_no_nul l : Forall good_def l -> Forall (fun kv => no_nul (fst kv)) l.
Proof.
  apply Forall_impl. intros [k v] [H _]. cbn [fst] in *.
  assert (A : ~ In NUL more) by (vm_compute; intuition discriminate).
  destruct H as [(c & r & -> & Hc & Hr)| ->]; [|apply no_nul_nil]. intros [->|Hi].
  - apply A. unfold more. apply in_or_app. left. exact Hc.
  - rewrite Forall_forall in Hr. apply A. auto.
Qed.
Lemma spaced_utf8 l : Forall utf8 l -> utf8 (spaced l).
Proof.
  induction 1 as [|t r Ht Hr IH]; [exists []; split; [constructor|reflexivity]|]. cbn [spaced]. destruct r; [exact Ht|].
  apply utf8_app; [exact Ht|]. apply utf8_app; [|exact IH]. apply utf8_ascii. constructor; [vm_compute; reflexivity|constructor].
Qed.

Section EndToEnd.
Variable contents : bytes -> option bytes.
Variable mktime : tm -> tm.
Variable strftime : bytes -> tm -> option bytes.
Variable funcs : list (bytes * (vars -> vars)).
Variable sfuel rfuel : nat.
Variable mkdir fopen : bytes -> bool.
Variable stored : bytes -> bytes -> bytes.
Variable version : bytes.
Notation blogc := (blogc_main contents mktime strftime funcs sfuel rfuel mkdir fopen stored version).
Notation run := (compile contents mktime strftime funcs sfuel rfuel mkdir fopen stored).

Lemma main_stdin args o l input : parse_args args (no_opts (trie_insert trie_new (B "BLOGC_VERSION") version)) = Ok (inl o) ->
  o_sources o = [] -> (o_stdin o = true -> filelist_parse input = Ok l /\ filelist_free l = Ok tt) ->
  blogc args input = run o (if o_stdin o then map snd l else []).
Proof.
  intros E Es Hl. unfold blogc_main. unfold no_opts in E. rewrite E. cbn [rbind]. rewrite Es. destruct (o_stdin o); [|reflexivity].
  destruct (Hl eq_refl) as [-> Hf]. cbn [rbind app]. destruct (run o (map snd l)) as [r| |]; [|reflexivity|reflexivity].
  cbn [rbind]. rewrite Hf. reflexivity.
Qed.

Definition tags_ok (st : settings) : Prop :=
  forall l, s_tags st = Some l -> Forall (fun t => ~ In SQ t) l.

(* the options blogc ends up with *)
Definition meant (o : opts) (dev : bool) (lv gv : option (trie bytes)) (st : settings) : Prop :=
  o_debug o = false /\ o_sources o = [] /\
  forall n, no_nul n -> trie_lookup (o_config o) n = effective dev lv gv (s_global st) (s_tags st) version n.

Lemma call_meant src st blogc_bin bin gv lv print listing entry template output dev stdin :
  settings_parse src = Ok (inl st) -> utf8 src -> tags_ok st -> word blogc_bin bin -> named gv -> named lv ->
  (match print with Some p => Forall plain p /\ p <> [] | None => True end) ->
  opt_ok entry -> opt_ok template -> opt_ok output ->
  exists env args o,
    sh_words (build_blogc_cmd blogc_bin (Some st) gv lv print listing entry template output dev stdin) = Some (env ++ bin :: args)
    /\ env = (match trie_lookup (s_settings st) (B "locale") with Some l => [B "LC_ALL=" ++ l] | None => [] end)
    /\ parse_args args (no_opts (trie_insert trie_new (B "BLOGC_VERSION") version)) = Ok (inl o)
    /\ meant o dev lv gv st /\ o_stdin o = stdin /\ o_listing o = listing /\ o_template o = template /\ o_output o = output
    /\ o_print o = print /\ o_entries o = (if listing then match entry with Some e => [e] | None => [] end else []).
Proof.
  intros E Hsrc Ht Hb Hg Hl Hp He Htm Ho.
  destruct (@ConfigUtf8.settings_utf8 src st (proj1 (Utf8Text.utf8_ok src) Hsrc) E) as (U1 & _ & _ & _ & _ & U2).
  assert (Hu : forall k v, no_nul k -> trie_lookup (s_global st) k = Some v -> utf8 v)
    by (intros k v _ Ek; apply Utf8Text.utf8_ok; exact (SourceUtf8.tall_lookup U1 Ek)).
  pose (k := the_call bin (Some st) gv lv print listing entry template output dev stdin).
  pose proof (settings_parsed E) as F.
  assert (Hgl : named (Some (s_global st))).
  { split; [apply (fb_global F)|]. intros n v Hn El. destruct (fb_names F Hn El) as [A B0]. split; [exact A|]. split; [exact B0|]. exact (Hu n v Hn El). }
  assert (Gt : Forall good_def (match s_tags st with Some t => [(B "MAKE_TAGS", spaced t)] | None => [] end)).
  { destruct (s_tags st) as [l|] eqn:Et; constructor; [|constructor]. apply good_def_intro.
    - left. eexists _, _. split; [reflexivity|]. split; [vm_compute; auto 30|]. apply Forall_forall. intros c Hc. vm_compute in Hc.
      apply more_spec. intuition (subst; reflexivity).
    - apply spaced_utf8. eapply Forall_impl; [|exact (U2 _ eq_refl)]. intro t. apply Utf8Text.utf8_ok. }
  assert (Gd : Forall good_def (if dev then [(B "MAKE_ENV_DEV", B "1"); (B "MAKE_ENV", B "dev")] else [])).
  { destruct dev; [|constructor].
    assert (V : forall n c r, n = c :: r -> is_upper c = true -> forallb (fun x => is_upper x || is_digit x || (x == "_"%char)) r = true -> valid_name n).
    { intros n c r -> H1 H2. exists c, r. split; [reflexivity|]. split; [apply letters_spec; exact H1|]. apply Forall_forall.
      intros x Hx. apply more_spec. rewrite forallb_forall in H2. auto. }
    assert (U : forall x, forallb (fun c => N.ltb (nb c) 128) x = true -> utf8 x).
    { intros x H. apply utf8_ascii. apply Forall_forall. intros c Hc. rewrite forallb_forall in H. apply N.ltb_lt. auto. }
    constructor; [|constructor; [|constructor]]; apply good_def_intro; [left|apply U; reflexivity|left|apply U; reflexivity];
      (eapply V; [reflexivity|reflexivity|reflexivity]). }
  assert (Gall : Forall good_def (call_defs k)).
  { unfold call_defs, k, the_call. cbn [k_tags k_vars k_dev]. apply Forall_app. split; [exact Gt|]. apply Forall_app.
    split; [|exact Gd]. apply Forall_app. split; [apply named_defs; exact Hgl|]. apply Forall_app. split; apply named_defs; assumption. }
  exists (call_env k), (call_args k). eexists. split; [|split; [reflexivity|split; [apply parse_call; exact Gall|]]].
  - rewrite (@C47_blogcfile_partial src st blogc_bin bin gv lv print listing entry template output dev stdin); try assumption;
      try (apply named_ok; assumption).
    fold k. rewrite call_split. reflexivity.
  - unfold meant. cbn [o_debug o_sources o_config o_stdin o_listing o_template o_output o_print o_entries].
    split; [|repeat (split; [reflexivity|]); reflexivity]. split; [reflexivity|]. split; [reflexivity|].
    intros n Hn. rewrite insert_all_lookup; [|exact Hn|apply good_no_nul; exact Gall].
    rewrite trie_lookup_insert; [|apply no_nulb_spec; reflexivity|exact Hn]. rewrite trie_lookup_new.
    unfold call_defs, k, the_call. cbn [k_tags k_vars k_dev]. rewrite !last_def_app.
    rewrite !last_def_pairs; try assumption; try (apply named_wf; assumption); [|apply (fb_global F)].
    unfold effective. cbn [in_trie].
    assert (D : last_def n (if dev then [(B "MAKE_ENV_DEV", B "1"); (B "MAKE_ENV", B "dev")] else [])
                = or (only dev (B "MAKE_ENV") (B "dev") n) (only dev (B "MAKE_ENV_DEV") (B "1") n)).
    { destruct dev; [|reflexivity]. cbn [last_def only]. unfold or. destruct (beq (B "MAKE_ENV") n); reflexivity. }
    rewrite D.
    assert (T : last_def n (match s_tags st with Some t => [(B "MAKE_TAGS", spaced t)] | None => [] end)
                = match s_tags st with Some t => only true (B "MAKE_TAGS") (spaced t) n | None => None end)
      by (destruct (s_tags st); reflexivity).
    rewrite T. unfold or, only. destruct dev;
      [destruct (beq (B "MAKE_ENV") n); [reflexivity|]; destruct (beq (B "MAKE_ENV_DEV") n); [reflexivity|]|];
      (destruct (in_trie lv n); [reflexivity|]; destruct (in_trie gv n); [reflexivity|];
       destruct (trie_lookup (s_global st) n); reflexivity).
Qed.

(* C65, for tags without single quotes: what the shell runs for a rule is blogc
   compiling exactly the sources given, with the template, output, listing entry
   and variables blogc-make meant. *)
Theorem C65_end_to_end_partial : forall src st bin c gv lv listing entry template output sources only_first,
  settings_parse src = Ok (inl st) -> e_settings c = st -> utf8 src -> tags_ok st -> word (e_blogc c) bin ->
  named gv -> named lv -> opt_ok entry -> no_nul template -> no_nul output -> Forall line_path sources ->
  exists env args o,
    sh_words (fst (exec_blogc c gv lv listing entry template output sources only_first)) = Some (env ++ bin :: args)
    /\ env = (match trie_lookup (s_settings st) (B "locale") with Some l => [B "LC_ALL=" ++ l] | None => [] end)
    /\ blogc args (snd (exec_blogc c gv lv listing entry template output sources only_first))
       = run o (if only_first then firstn 1 sources else sources)
    /\ meant o (e_dev c) lv gv st /\ o_listing o = listing /\ o_template o = Some template /\ o_output o = Some output
    /\ o_print o = None /\ o_entries o = (if listing then match entry with Some e => [e] | None => [] end else []).
Proof.
  intros src st bin c gv lv listing entry template output sources only_first E Ec Hsrc Ht Hb Hg Hl He Htm Ho Hs.
  unfold exec_blogc. cbn [fst snd]. rewrite Ec.
  destruct (@call_meant src st (e_blogc c) bin gv lv None listing entry (Some template) (Some output) (e_dev c)
              (negb (Nat.eqb (length (sources_input only_first sources)) 0)) E Hsrc Ht Hb Hg Hl I He Htm Ho)
    as (env & args & o & H1 & H2 & H3 & H4 & H5 & H6 & H7 & H8 & H9 & H10).
  exists env, args, o. split; [exact H1|]. split; [exact H2|]. split; [|repeat (split; [assumption|]); assumption].
  destruct (C47_sources only_first Hs) as (l & L1 & L2 & L3).
  assert (P : o_sources o = []) by apply H4.
  rewrite (@main_stdin args o l _ H3 P (fun _ => conj L1 L3)). f_equal. rewrite H5, L2.
  destruct (if only_first then firstn 1 sources else sources) as [|x r] eqn:Ex.
  - unfold sources_input. rewrite Ex. reflexivity.
  - unfold sources_input. rewrite Ex. cbn [flat_map]. rewrite !app_length. cbn [length].
    replace (Nat.eqb _ 0) with false; [reflexivity|]. symmetry. apply Nat.eqb_neq. lia.
Qed.

(* likewise for asking a variable *)
Theorem C65_variable_partial : forall src st bin c gv lv variable listing sources only_first,
  settings_parse src = Ok (inl st) -> e_settings c = st -> utf8 src -> tags_ok st -> word (e_blogc c) bin ->
  named gv -> named lv -> Forall plain variable -> variable <> [] -> Forall line_path sources ->
  exists env args o,
    sh_words (fst (exec_get_variable c gv lv variable listing sources only_first)) = Some (env ++ bin :: args)
    /\ env = (match trie_lookup (s_settings st) (B "locale") with Some l => [B "LC_ALL=" ++ l] | None => [] end)
    /\ blogc args (snd (exec_get_variable c gv lv variable listing sources only_first))
       = run o (if only_first then firstn 1 sources else sources)
    /\ meant o (e_dev c) lv gv st /\ o_listing o = listing /\ o_print o = Some variable /\ o_output o = None /\ o_entries o = [].
Proof.
  intros src st bin c gv lv variable listing sources only_first E Ec Hsrc Ht Hb Hg Hl Hv Hv' Hs.
  unfold exec_get_variable. cbn [fst snd]. rewrite Ec.
  destruct (@call_meant src st (e_blogc c) bin gv lv (Some variable) listing None None None (e_dev c)
              (negb (Nat.eqb (length (sources_input only_first sources)) 0)) E Hsrc Ht Hb Hg Hl (conj Hv Hv') I I I)
    as (env & args & o & H1 & H2 & H3 & H4 & H5 & H6 & H7 & H8 & H9 & H10).
  exists env, args, o. split; [exact H1|]. split; [exact H2|].
  split; [|split; [exact H4|split; [exact H6|split; [assumption|split; [assumption|rewrite H10; destruct listing; reflexivity]]]]].
  destruct (C47_sources only_first Hs) as (l & L1 & L2 & L3).
  assert (P : o_sources o = []) by apply H4.
  rewrite (@main_stdin args o l _ H3 P (fun _ => conj L1 L3)). f_equal. rewrite H5, L2.
  destruct (if only_first then firstn 1 sources else sources) as [|x r] eqn:Ex.
  - unfold sources_input. rewrite Ex. reflexivity.
  - unfold sources_input. rewrite Ex. cbn [flat_map]. rewrite !app_length. cbn [length].
    replace (Nat.eqb _ 0) with false; [reflexivity|]. symmetry. apply Nat.eqb_neq. lia.
Qed.
End EndToEnd.
Print Assumptions C65_end_to_end_partial.
Print Assumptions C65_variable_partial.
