(* Sources made of UTF-8 give UTF-8 values. *)
From Verif Require Import Base Utils UtilsProofs Utf8 Utf8Proofs Utf8Text Trie Toctree Content InlineUtf8 BlockSpec BlockProofs BlockUtf8 Source Datetime Sort SortProofs Loader.
#[local] Open Scope nat_scope.
#[local] Arguments B : simpl never.

(* every value of a trie *)
Definition tall (t : trie bytes) : Prop := Forall ok (trie_free t).
Lemma tall_new : tall trie_new. Proof. constructor. Qed.
Lemma tall_node c d ch nx : tall (Node c d ch nx) <-> ook d /\ tall ch /\ tall nx.
Proof.
  unfold tall. cbn [trie_free]. rewrite !Forall_app. split.
  - intros (H1 & H2 & H3). split; [|auto]. intros t ->. inversion H1; assumption.
  - intros (H1 & H2 & H3). split; [|auto]. destruct d; constructor; [apply H1; reflexivity|constructor].
Qed.
Lemma tall_insert_go k v : ok v -> forall t, tall t -> tall (fst (insert_go k v t)).
Proof.
  intro Hv. induction k as [|c k IH]; intros t Ht; [exact Ht|]. cbn [insert_go]. induction t as [|c0 d ch _ nx IHn].
  - destruct (c == NUL).
    + apply tall_node. split; [apply ook_some; exact Hv|split; exact tall_new].
    + pose proof (IH Nil tall_new) as K. destruct (insert_go k v Nil) as [t fr]. apply tall_node. split; [exact ook_none|split; [exact K|exact tall_new]].
  - apply tall_node in Ht. destruct Ht as (H1 & H2 & H3). destruct (c0 == c).
    + destruct (c == NUL).
      * apply tall_node. split; [apply ook_some; exact Hv|auto].
      * pose proof (IH ch H2) as K. destruct (insert_go k v ch) as [t fr]. apply tall_node. auto.
    + specialize (IHn H3). match goal with |- tall (fst (let '(_, _) := ?x in _)) => destruct x as [nx' fr] end. apply tall_node. auto.
Qed.
Lemma tall_insert t k v : tall t -> ok v -> tall (trie_insert t k v).
Proof. intros H1 H2. apply tall_insert_go; assumption. Qed.
Lemma tall_lookup t k v : tall t -> trie_lookup t k = Some v -> ok v.
Proof.
  unfold trie_lookup. generalize (k ++ [NUL]). clear k. intro k. revert t. induction k as [|c k IH]; intros t Ht; [discriminate|]. cbn [lookup_go].
  induction t as [|c0 d ch _ nx IHn]; [discriminate|]. apply tall_node in Ht. destruct Ht as (H1 & H2 & H3).
  destruct (c0 == c); [destruct (c0 == NUL); [exact (H1 v)|apply IH; exact H2]|apply IHn; exact H3].
Qed.
Lemma tall_ook t k : tall t -> ook (trie_lookup t k).
Proof. intros H v E. exact (tall_lookup H E). Qed.

Lemma ok_cstr s : ok s -> ok (cstr s).
Proof.
  intro H. assert (G : forall p, ok (p ++ s) -> ok (p ++ cstr s)); [|exact (G [] H)]. clear H. induction s as [|c s IH]; intros p H; [exact H|].
  cbn [cstr]. destruct (c == NUL) eqn:E.
  - apply eqb_true in E. subst c. rewrite app_nil_r. apply (@ok_split p NUL s eq_refl) in H. apply H.
  - specialize (IH (p ++ [c])). rewrite <- !app_assoc in IH. apply IH. exact H.
Qed.
Lemma ok_sub s lo hi : ok s -> bd s lo -> bd s hi -> lo <= hi -> ok (sub s lo hi).
Proof. intros H L K E. unfold sub. apply bd_first. apply (bd_shift _ L). replace (lo + (hi - lo)) with hi by lia. exact K. Qed.
Lemma ok_split_str c s mx : asc c = true -> ok s -> Forall ok (str_split s c mx).
Proof.
  intros A H. unfold str_split. destruct s as [|x s]; [constructor|]. set (u := x :: s) in *. clearbody u. clear x s.
  assert (G : forall n tok, ok (tok ++ u) -> Forall ok (split_go c mx n tok u)); [|exact (G 0 [] H)]. clear H.
  induction u as [|x u IH]; intros n tok H; cbn [split_go].
  - rewrite app_nil_r in H. constructor; [exact H|constructor].
  - destruct ((x == c) && _) eqn:E.
    + apply andb_true_iff in E. destruct E as [E _]. apply eqb_true in E. subst x. destruct (@ok_split tok c u A H) as [H1 H2].
      constructor; [exact H1|]. apply IH. exact H2.
    + apply IH. rewrite <- app_assoc. exact H.
Qed.

(* the table of contents *)
Lemma ok_spaces n : ok (spaces n). Proof. apply ok_asc, repeat_asc. reflexivity. Qed.
Lemma toc_close_ok n e : ok e -> forall cur sp t c' s', toc_close n e cur sp = Ok (t, c', s') -> ok t.
Proof.
  intro He. induction n as [|n IH]; intros cur sp t c' s'; cbn [toc_close]; [intro H; inversion H; reflexivity|].
  destruct (Nat.ltb sp 4 || Nat.eqb cur 0); [discriminate|]. destruct (toc_close n e (cur - 1) (sp - 4)) as [[[x y] z]| |] eqn:E; cbn [rbind]; try discriminate.
  intro H. inversion H; subst. specialize (IH _ _ _ _ _ E). pose proof (ok_spaces (sp - 4)). oks.
Qed.
Lemma toc_open_ok n e : ok e -> forall cur sp, ok (fst (fst (toc_open n e cur sp))).
Proof.
  intro He. induction n as [|n IH]; intros cur sp; cbn [toc_open]; [reflexivity|]. specialize (IH (cur + 1) (sp + 4)).
  destruct (toc_open n e (cur + 1) (sp + 4)) as [[x y] z]. cbn [fst] in *. pose proof (ok_spaces sp). oks.
Qed.
Lemma toc_item_ok e h sp : ok e -> hok h -> ok (toc_item e h sp).
Proof.
  intros He [H1 H2]. unfold toc_item. pose proof (ok_spaces sp).
  assert (T : ok (match h_text h with Some t => t | None => [] end)) by (destruct (h_text h); [apply H2; reflexivity|reflexivity]).
  oks. destruct (h_slug h) as [s|]; [|exact T]. pose proof (H1 s eq_refl). oks.
Qed.
Lemma toc_loop_ok e low md : ok e -> forall l, Forall hok l -> forall cur sp t c' s', toc_loop e low md l cur sp = Ok (t, c', s') -> ok t.
Proof.
  intro He. induction 1 as [|h l Hh Hl IH]; intros cur sp t c' s'; cbn [toc_loop]; [intro H; inversion H; reflexivity|].
  destruct (too_deep low md h); [apply IH|]. destruct (toc_close _ e cur sp) as [[[t1 c1] s1]| |] eqn:E1; cbn [rbind]; try discriminate.
  pose proof (toc_open_ok (h_level h - c1) He c1 s1) as K2. destruct (toc_open _ e c1 s1) as [[t2 c2] s2]. cbn [fst] in K2.
  destruct (toc_loop e low md l c2 s2) as [[[t3 c3] s3]| |] eqn:E3; cbn [rbind]; try discriminate. intro H. inversion H; subst.
  pose proof (@toc_close_ok _ _ He _ _ _ _ _ E1). pose proof (IH _ _ _ _ _ E3). pose proof (@toc_item_ok e h s2 He Hh). oks.
Qed.
Lemma toctree_ok l md e t : Forall hok l -> ok e -> toctree_render l md (Some e) = Ok (Some t) -> ok t.
Proof.
  intros Hl He. unfold toctree_render. destruct l as [|h l]; [discriminate|]. destruct (md =? 0)%Z; [discriminate|].
  destruct (Nat.eqb _ 0); [discriminate|]. cbn [toc_endl].
  destruct (toc_loop e _ md (h :: l) _ 4) as [[[t1 c1] s1]| |] eqn:E1; cbn [rbind]; try discriminate.
  destruct (toc_close _ e c1 s1) as [[[t2 c2] s2]| |] eqn:E2; cbn [rbind]; try discriminate. intro H. inversion H; subst.
  pose proof (@toc_close_ok _ _ He _ _ _ _ _ E2). pose proof (toc_loop_ok He Hl E1). oks.
Qed.

(* the source parser *)
Definition su (src : bytes) (cur : nat) (s : sst) : Prop :=
  tall (s_rv s) /\
  match s_state s with
  | SKey | SValue | SContent => bd src (s_start s)
  | SValueStart | SContentStart => bd src cur
  | _ => True
  end.
Lemma source_content_ok fuel src md cur s s' : ok src -> tall (s_rv s) -> bd src (s_start s) ->
  source_content fuel src md cur s = Ok (Good s') -> tall (s_rv s') /\ s_state s' = s_state s /\ s_start s' = s_start s.
Proof.
  intros Hs Ht Hb. unfold source_content. set (tmp := strndup _ _).
  assert (T : ok tmp).
  { unfold tmp, strndup. apply ok_cstr. rewrite firstn_all2 by (rewrite skipn_length; lia). exact (bd_skip Hs Hb). }
  pose proof (@tall_insert _ (B "RAW_CONTENT") _ Ht T) as T1. set (rv := trie_insert _ _ tmp) in *. clearbody rv.
  destruct (content_parse _ _ tmp None) as [b| |] eqn:E; cbn [rbind]; try discriminate.
  apply content_V in E; [|exact T|discriminate]. destruct E as (V1 & V2 & V3 & V4 & V5 & V6 & V7 & V8 & V9 & V10 & V11 & V12).
  assert (OI : forall t k x, tall t -> ook x -> tall (opt_insert t k x)).
  { intros t k x H1 H2. unfold opt_insert. destruct x as [x|]; [|exact H1]. destruct (trie_lookup t k); [exact H1|]. apply tall_insert; auto. }
  pose proof (OI _ (B "DESCRIPTION") _ (OI _ (B "FIRST_HEADER") _ T1 V5) V6) as T2. set (rv2 := opt_insert _ (B "DESCRIPTION") _) in *. clearbody rv2.
  assert (X : ok (if Nat.eqb (b_exc b) 0 then b_rv b else strndup (b_rv b) (b_exc b))).
  { destruct (Nat.eqb (b_exc b) 0); [exact V1|]. apply ok_cstr. apply V4. }
  assert (FIN : forall rv s', tall rv ->
    Ok (Good (Sst (s_state s) (s_start s) (s_key s) (trie_insert (trie_insert rv (B "CONTENT") (b_rv b)) (B "EXCERPT")
       (if Nat.eqb (b_exc b) 0 then b_rv b else strndup (b_rv b) (b_exc b))))) = Ok (Good s') -> tall (s_rv s') /\ s_state s' = s_state s /\ s_start s' = s_start s).
  { intros r z Hr H. injection H as <-. cbn [s_rv s_state s_start]. split; [|auto]. apply tall_insert; [apply tall_insert; assumption|exact X]. }
  destruct (b_hdrs b) as [|h l] eqn:Eh; [apply FIN; exact T2|]. cbv zeta.
  match goal with |- context [match ?x with None => Ok (Bad _) | Some _ => _ end] => destruct x as [d|]; [|discriminate] end.
  destruct (toctree_render _ d _) as [[t|]| |] eqn:Et; cbn [rbind]; try discriminate; apply FIN; auto.
  apply tall_insert; [exact T2|]. apply (toctree_ok V7 (ok_nls V2) Et).
Qed.
Lemma source_step_ok fuel src md cur c s s' : ok src -> nth_error src cur = Some c -> su src cur s ->
  source_step fuel src md cur c s = Ok (Good s') -> su src (cur + 1) s'.
Proof.
  intros Hs Ec. assert (A : asc c = true -> bd src cur /\ bd src (cur + 1)) by exact (bd_asc Hs Ec).
  assert (AN : is_nl c = true -> bd src cur /\ bd src (cur + 1)) by (intro E; exact (A (@asc_of is_nl eq_refl c E))).
  destruct s as [st start key rv]. intros [Ht Hst]. cbn [s_state s_start s_rv] in *. unfold source_step. destruct st.
  - destruct (_ || _ || _ || _); [intro H; injection H as <-; split; [exact Ht|exact I]|].
    destruct (is_upper c) eqn:E. { intro H; injection H as <-. split; [exact Ht|]. apply A. exact (@asc_of is_upper eq_refl c E). }
    destruct (c == "-"%char); [|discriminate]. intro H; injection H as <-. split; [exact Ht|exact I].
  - destruct (_ || _ || _); [intro H; injection H as <-; split; [exact Ht|exact Hst]|].
    destruct (c == ":"%char) eqn:E; [|discriminate]. apply eqb_true in E. subst c. destruct (existsb _ _); [discriminate|].
    intro H; injection H as <-. split; [exact Ht|]. apply A. reflexivity.
  - destruct (is_nl c) eqn:E; cbn [negb].
    + destruct key as [k|]; [|discriminate]. intro H; injection H as <-. split; [|exact I]. apply tall_insert; [exact Ht|reflexivity].
    + intro H; injection H as <-. split; [exact Ht|exact Hst].
  - destruct (is_nl c) eqn:E.
    + destruct key as [k|]; [|discriminate]. intro H; injection H as <-. split; [|exact I]. apply tall_insert; [exact Ht|].
      apply ok_strip, ok_cstr. destruct (Nat.leb_spec start cur) as [L|L].
      * exact (@ok_sub src start cur Hs Hst (proj1 (AN eq_refl)) L).
      * replace (cur - start) with 0 by lia. reflexivity.
    + intro H; injection H as <-. split; [exact Ht|exact Hst].
  - destruct (c == "-"%char); [intro H; injection H as <-; split; [exact Ht|exact I]|].
    destruct (is_nl c) eqn:E; [|discriminate]. intro H; injection H as <-. split; [exact Ht|]. apply (AN eq_refl).
  - destruct (is_nl c) eqn:E; intro H; injection H as <-; (split; [exact Ht|]); [apply (AN eq_refl)|exact Hst].
  - destruct (Nat.eqb cur (length src - 1)).
    + intro H. destruct (@source_content_ok _ _ _ _ (Sst SContent start key rv) _ Hs Ht Hst H) as (H1 & H2 & H3). split; [exact H1|]. rewrite H2, H3. exact Hst.
    + intro H; injection H as <-. split; [exact Ht|exact Hst].
Qed.
Lemma source_loop_ok fuel src md : ok src -> forall rest cur s s', src = firstn cur src ++ rest -> length (firstn cur src) = cur -> su src cur s ->
  source_loop fuel src md rest cur s = Ok (Good s') -> tall (s_rv s').
Proof.
  intro Hs. induction rest as [|c rest IH]; intros cur s s' E L I; cbn [source_loop].
  - intro H; injection H as <-. apply I.
  - assert (Ec : nth_error src cur = Some c).
    { rewrite E, nth_error_app2 by lia. rewrite L, Nat.sub_diag. reflexivity. }
    destruct (source_step fuel src md cur c s) as [[s1|e]| |] eqn:Es; cbn [rbind]; try discriminate.
    apply IH.
    + rewrite (firstn_snoc Ec), <- app_assoc. exact E.
    + rewrite (firstn_snoc Ec), app_length, L. reflexivity.
    + exact (source_step_ok Hs Ec I Es).
Qed.
Theorem source_utf8 fuel src md t : ok src -> source_parse fuel src md = Ok (Good t) -> tall t.
Proof.
  intros Hs. unfold source_parse. destruct (source_loop fuel src md src 0 sst0) as [[s|e]| |] eqn:E; cbn [rbind]; try discriminate.
  apply source_loop_ok in E; [|exact Hs|reflexivity|reflexivity|split; [exact tall_new|exact I]].
  unfold source_finish. destruct (Nat.eqb _ 0); [|intro H; injection H as <-; exact E].
  destruct (s_state s); try discriminate; try (destruct (s_key s); discriminate); intro H; injection H as <-; exact E.
Qed.

(* the loader *)
Lemma ok_filename f n : ok f -> get_filename (Some f) = Some n -> ok n.
Proof.
  intro H. unfold get_filename. destruct f as [|a f]; [discriminate|]. set (u := a :: f) in *. clearbody u. clear a f. intro E; injection E as <-.
  (* acc is what follows the part still to be read, possibly cut at its last dot *)
  assert (G : forall r acc b, ok (rev r ++ acc) -> ok (filename_go b acc r)).
  { induction r as [|c r IH]; intros acc b K; cbn [filename_go]; [exact K|].
    cbn [rev] in K. rewrite <- app_assoc in K. cbn [app] in K.
    destruct (negb b && (c == "."%char)) eqn:E1.
    - apply andb_true_iff in E1. destruct E1 as [_ E1]. apply eqb_true in E1. subst c. apply IH. rewrite app_nil_r.
      apply (@ok_split (rev r) "."%char acc eq_refl) in K. apply K.
    - destruct ((c == "/"%char) || (c == BSL)) eqn:E2; [|apply IH; exact K].
      assert (A : asc c = true) by (apply orb_true_iff in E2; destruct E2 as [E2|E2]; apply eqb_true in E2; subst c; reflexivity).
      apply (@ok_split (rev r) c acc A) in K. apply K. }
  apply G. rewrite rev_involutive, app_nil_r. exact H.
Qed.
Lemma ok_print_z z : ok (print_z z).
Proof. unfold print_z. destruct (z <? 0)%Z; [apply ok_cons; [reflexivity|]|]; apply ok_dec. Qed.

Section Load.
Variable contents : bytes -> option bytes.
Variable mktime : tm -> tm.
Variable strftime : bytes -> tm -> option bytes.
Variable fuel : nat.
Hypothesis Hc : forall f s, contents f = Some s -> ok s.
Hypothesis Ht : forall f x s, ok f -> strftime f x = Some s -> ok s.

Lemma convert_ok d f x : ok f -> convert_datetime mktime strftime d f = Datatypes.inl x -> ok x.
Proof.
  intro Hf. unfold convert_datetime. destruct (dt_parse d) as [t|e]; [|discriminate].
  destruct (strftime f (mktime t)) as [o|] eqn:E; [|discriminate]. intro H; injection H as <-. exact (Ht Hf E).
Qed.
Lemma from_file_ok conf f t : ok f -> source_parse_from_file contents fuel conf f = Ok (Loaded t) -> tall t.
Proof.
  intro Hf. unfold source_parse_from_file. destruct (contents f) as [s|] eqn:E; [|discriminate].
  destruct (source_parse fuel s _) as [[u|e]| |] eqn:Es; cbn [rbind]; try discriminate. apply source_utf8 in Es; [|exact (Hc E)].
  destruct (get_filename (Some f)) as [n|] eqn:En; intro H; injection H as <-; [|exact Es]. apply tall_insert; [exact Es|exact (ok_filename Hf En)].
Qed.
Lemma load_go_ok conf sort : forall l src n r m, Forall ok l -> Forall tall src ->
  load_go contents mktime strftime fuel conf sort l src n = Ok (Loaded (r, m)) -> Forall tall r.
Proof.
  induction l as [|f l IH]; intros src n r m Hl Hs; cbn [load_go]; [intro H; injection H as <- <-; exact Hs|].
  inversion Hl as [|? ? Hf Hl']; subst.
  destruct (source_parse_from_file contents fuel conf f) as [[s|e]| |] eqn:E; cbn [rbind]; try discriminate. apply from_file_ok in E; [|exact Hf].
  destruct sort.
  - destruct (trie_lookup s (B "DATE")) as [d|]; [|discriminate]. destruct (convert_datetime mktime strftime d (B "%s")) as [x|e] eqn:Ex; [|discriminate].
    apply IH; [exact Hl'|]. apply Forall_app. split; [exact Hs|]. constructor; [|constructor]. apply tall_insert; [exact E|].
    exact (@convert_ok d (B "%s") x eq_refl Ex).
  - apply IH; [exact Hl'|]. apply Forall_app. auto.
Qed.

Lemma gather_ok conf l r : Forall ok l -> gather contents mktime strftime fuel conf l = Ok (Loaded r) -> Forall tall r.
Proof.
  intro Hl. unfold gather. destruct (load_go contents mktime strftime fuel conf _ l [] 0) as [[[src n]|e]| |] eqn:E; cbn [rbind]; try discriminate.
  apply load_go_ok in E; [|exact Hl|constructor]. destruct (_ && _); [discriminate|].
  destruct (str_to_bool (trie_lookup conf (B "FILTER_SORT"))).
  - match goal with |- context [slist_sort ?c src] => destruct (@sort_any _ c src) as (l' & -> & Hp) end. cbn [rbind]. intro H; injection H as <-.
    rewrite Forall_forall in *. intros x Hx. apply E. apply Permutation.Permutation_sym in Hp. exact (Permutation.Permutation_in _ Hp Hx).
  - intro H; injection H as <-. destruct (str_to_bool _); [|exact E].
    assert (G : forall a b, Forall tall a -> Forall tall b -> Forall tall (fold_left (fun acc s => s :: acc) a b)).
    { induction a as [|x a IH]; intros b Ha Hb; [exact Hb|]. inversion Ha; subst. apply IH; [assumption|constructor; assumption]. }
    apply G; [exact E|constructor].
Qed.
Lemma select_ok ft pg st en : forall l rv n, Forall tall l -> Forall tall rv -> Forall tall (fst (select ft pg st en l rv n)).
Proof.
  induction l as [|s l IH]; intros rv n Hl Hr; cbn [select]; [exact Hr|]. inversion Hl; subst.
  assert (K : Forall tall (rv ++ [s])) by (apply Forall_app; auto).
  destruct (tag_found ft s); [|apply IH; assumption]. destruct pg; [|apply IH; assumption]. destruct (_ || _); apply IH; assumption.
Qed.
Lemma copy_ok s k k' conf : tall s -> tall conf -> tall (copy_var s k k' conf).
Proof. intros H1 H2. unfold copy_var. destruct (trie_lookup s k) as [v|] eqn:E; [|exact H2]. apply tall_insert; [exact H2|exact (tall_lookup H1 E)]. Qed.
Lemma first_last_ok : forall rv b conf, Forall tall rv -> tall conf -> tall (first_last b rv conf).
Proof.
  induction rv as [|s rv IH]; intros b conf Hr Hc'; cbn [first_last]; [exact Hc'|]. inversion Hr; subst. apply IH; [assumption|].
  destruct rv; destruct b; repeat apply copy_ok; assumption.
Qed.
Lemma listing_ok conf src r c' : tall conf -> Forall tall src -> listing conf src = Ok (r, c') -> Forall tall r /\ tall c'.
Proof.
  intros Hc' Hs. unfold listing. cbv zeta.
  match goal with |- rbind ?x _ = _ -> _ => destruct x as [start| |]; cbn [rbind]; try discriminate end.
  match goal with |- context [select ?a ?b ?c ?d src [] 0%Z] => pose proof (@select_ok a b c d src [] 0%Z Hs (Forall_nil _)) as K; destruct (select a b c d src [] 0%Z) as [rv n] end.
  cbn [fst] in K. pose proof (@first_last_ok rv true conf K Hc') as F. set (cf := first_last true rv conf) in *. clearbody cf.
  destruct (trie_lookup conf (B "FILTER_PAGE")); [|intro H; injection H as <- <-; auto].
  destruct (last_page n _) as [last| |]; cbn [rbind]; try discriminate. intro H; injection H as <- <-. split; [exact K|].
  repeat match goal with |- context [trie_insert _ (B ?k) (print_z ?p)] => let x := fresh in set (x := print_z p); assert (ok x) by apply ok_print_z; clearbody x end.
  repeat match goal with |- context [if ?b then trie_insert _ _ _ else _] => destruct b end; repeat (apply tall_insert; [|first [assumption|reflexivity]]); exact F.
Qed.
Theorem from_files_utf8 conf l r c' : tall conf -> Forall ok l ->
  source_parse_from_files contents mktime strftime fuel conf l = Ok (Loaded (r, c')) -> Forall tall r /\ tall c'.
Proof.
  intros Hc' Hl. unfold source_parse_from_files. destruct (gather contents mktime strftime fuel conf l) as [[src|e]| |] eqn:E; cbn [rbind]; try discriminate.
  apply gather_ok in E; [|exact Hl]. destruct (listing conf src) as [[a b]| |] eqn:El; cbn [rbind]; try discriminate. intro H; injection H as <- <-.
  exact (listing_ok Hc' E El).
Qed.
End Load.
