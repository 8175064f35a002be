(* Properties C22, C23, C24: rendering templates and resolving variables. *)
From Verif Require Import Base Utils Trie TrieProofs Template TemplateAbs TemplateSpec TemplateDoc TemplateStruct P_Template
  Renderer RenderTerm RenderSafe RenderSpec RenderValues RenderRefine RenderParsed.

#[local] Arguments B : simpl never.

(* variables for the examples *)
Fixpoint tr (l : list (bytes * bytes)) : trie bytes :=
  match l with [] => @trie_new bytes | (k, v) :: r => trie_insert (tr r) k v end.
Definition no_dates (d f : bytes) : option bytes := None.

(* ---- C22 ---- *)

(* The full claim is false: the parser accepts a template whose last closing
   statement is not finished, and the renderer runs past its end. *)
Theorem C22_render_refuted convert :
  exists src ast, template_parse src = Ok (inl ast) /\
  forall fuel, render convert [] ast [] false (S fuel) [] (@trie_new bytes) = UB.
Proof.
  exists (B "{% ifdef A %}x{% endif "). eexists. split; [vm_compute; reflexivity|].
  intro fuel. reflexivity.
Qed.
Print Assumptions C22_render_refuted.

(* Rendering ends, whatever the list of nodes. *)
Theorem C22_render_ends convert funcs tmpl sources listing entries config :
  exists fuel, render convert funcs tmpl sources listing fuel entries config <> OutOfFuel.
Proof.
  destruct (@loop_ends convert funcs tmpl sources listing (r_init entries config) (@loops_init tmpl listing entries config)) as (f & Hf).
  exists f. unfold render. destruct tmpl as [|n l]; [discriminate|]. unfold rbind.
  destruct (r_loop convert funcs (n :: l) sources listing f (r_init entries config)); [discriminate|discriminate|].
  exfalso. apply Hf. reflexivity.
Qed.
Print Assumptions C22_render_ends.

(* More fuel does not change the answer. *)
Theorem C22_render_fuel convert funcs tmpl sources listing entries config f f' : f <= f' ->
  render convert funcs tmpl sources listing f entries config <> OutOfFuel ->
  render convert funcs tmpl sources listing f' entries config = render convert funcs tmpl sources listing f entries config.
Proof.
  intros Hle H. unfold render in *. destruct tmpl as [|n l]; [reflexivity|]. unfold rbind in *.
  destruct (r_loop convert funcs (n :: l) sources listing f (r_init entries config)) as [s| |] eqn:E.
  - rewrite (@loop_fuel convert funcs (n :: l) sources listing f (r_init entries config) f'); [rewrite E; reflexivity|exact Hle|congruence].
  - rewrite (@loop_fuel convert funcs (n :: l) sources listing f (r_init entries config) f'); [rewrite E; reflexivity|exact Hle|congruence].
  - congruence.
Qed.
Print Assumptions C22_render_fuel.

Lemma parsed_shape src ast : template_parse src = Ok (inl ast) -> Forall shape ast.
Proof.
  intro H. destruct (C21_sources_partial H) as (l & tail & _ & (Hok & _) & E).
  assert (D : Forall shape (doc_nodes false l)) by (apply doc_shape; exact Hok).
  destruct E as [->|[->| ->]]; [exact D|apply rstrip_last_shape; exact D|].
  apply doc_shape_text. exact Hok.
Qed.

(* Every accepted template whose statements are all closed, that is every one
   but those of the refutation (C20_structure_partial), renders. *)
Theorem C22_render_partial convert funcs src ast sources listing entries config :
  template_parse src = Ok (inl ast) -> well_structured (types ast) ->
  exists fuel out, render convert funcs ast sources listing fuel entries config = Ok out.
Proof. intros H Hw. apply render_safe; [exact Hw|apply shape_fine, (parsed_shape H)]. Qed.
Print Assumptions C22_render_partial.

Example C22_example :
  exists ast, template_parse (items_text ex_doc) = Ok (inl ast) /\ well_structured (types ast) /\
  exists fuel out, render no_dates [] ast [tr [(B "A", B "x y")]] true fuel [] (tr []) = Ok out.
Proof.
  destruct ex_doc_ok as (H1 & H2 & H3). destruct (C20_documents_partial H1 H2) as [HA HB].
  destruct (HB H3) as (ast & Ha). exists ast. split; [exact Ha|]. destruct (HA _ Ha) as [_ Hw]. split; [exact Hw|].
  eapply C22_render_partial; eauto.
Qed.

(* ---- C23 ---- *)

(* a template properly nested and written out to its end, as a program *)
Lemma nested_prog l ast : items_ok l -> last_text_kept l -> proper false false (map item_type l) ->
  template_parse (items_text l) = Ok (inl ast) -> exists t, ast = flatten t /\ fits false false t.
Proof.
  intros H1 H2 Hp Ha. destruct (C20_documents_partial H1 H2) as [HA _]. destruct (HA _ Ha) as [Ht _].
  apply (@proper_flat false false (map item_type l)); [exact Hp|exact Ht|apply (parsed_shape Ha)].
Qed.

(* Rendering a nested program gives what the recursive reading says (with the
   scoping of the code). *)
Theorem C23_recursive_reading convert funcs sources listing t entries config :
  fits false false t -> flatten t <> [] ->
  exists fuel,
    render convert funcs (flatten t) sources listing fuel entries config =
    Ok (Some (fst (output convert (funcvars_eval funcs) sources listing true t entries config)),
        snd (output convert (funcvars_eval funcs) sources listing true t entries config)).
Proof. apply render_meaning. Qed.
Print Assumptions C23_recursive_reading.

(* Every properly nested template file that is accepted is such a program. *)
Theorem C23_templates_are_programs l : items_ok l -> last_text_kept l -> proper false false (map item_type l) ->
  exists t, template_parse (items_text l) = Ok (inl (flatten t)) /\ fits false false t.
Proof.
  intros H1 H2 Hp. destruct (C20_documents_partial H1 H2) as [_ HB]. destruct (HB Hp) as (ast & Ha).
  destruct (nested_prog H1 H2 Hp Ha) as (t & -> & Hf). eauto.
Qed.
Print Assumptions C23_templates_are_programs.

(* The documented scoping is not what the code does: here the variable stands
   after a skipped listing block, outside every block, and still gets the value
   from the post. *)
Theorem C23_scoping_refuted convert :
  exists t sources, fits false false t /\
    fst (output convert (funcvars_eval []) sources false true t [] (@trie_new bytes)) <>
    fst (output convert (funcvars_eval []) sources false false t [] (@trie_new bytes)).
Proof.
  exists (PBlock (B "entry") PEnd (PBlock (B "listing") PEnd (PVar (B "TITLE") PEnd))), [tr [(B "TITLE", B "t")]].
  split; [repeat split; discriminate|]. vm_compute. discriminate.
Qed.
Print Assumptions C23_scoping_refuted.

(* The other block concerned: listing_once after listing sees the last post. *)
Theorem C23_listing_once_refuted convert :
  exists t sources, fits false false t /\
    fst (output convert (funcvars_eval []) sources true true t [] (@trie_new bytes)) <>
    fst (output convert (funcvars_eval []) sources true false t [] (@trie_new bytes)).
Proof.
  exists (PBlock (B "listing") PEnd (PBlock (B "listing_once") (PVar (B "TITLE") PEnd) PEnd)), [tr [(B "TITLE", B "t")]].
  split; [repeat split; discriminate|]. vm_compute. discriminate.
Qed.
Print Assumptions C23_listing_once_refuted.

(* With the documented scoping the recursive reading holds for the templates
   where no block that has no source of its own follows one that may have. *)
Theorem C23_structure_partial convert funcs sources listing t entries config :
  fits false false t -> flatten t <> [] -> calm sources listing false t = true ->
  exists fuel,
    render convert funcs (flatten t) sources listing fuel entries config =
    Ok (Some (fst (output convert (funcvars_eval funcs) sources listing false t entries config)),
        snd (output convert (funcvars_eval funcs) sources listing false t entries config)).
Proof.
  intros Hf Hn Hc. destruct (@C23_recursive_reading convert funcs sources listing t entries config Hf Hn) as (f & H).
  exists f. rewrite H. rewrite (calm_output convert (funcvars_eval funcs) entries config Hf Hc). reflexivity.
Qed.
Print Assumptions C23_structure_partial.

(* a listing with a condition, a loop and a variable before and after *)
Definition ex_prog : prog :=
  PVar (B "SITE") (PText (B ": ") (PBlock (B "listing")
    (PIfElse (CCmp (B "TITLE") OEq (B """b"""))
       (PText (B "[b]") PEnd)
       (PFor (B "TAGS") (PVar (B "FOREACH_ITEM") (PText (B ",") PEnd)) PEnd)
       PEnd)
    (PVar (B "SITE") PEnd))).
Definition ex_sources : list (trie bytes) :=
  [tr [(B "TITLE", B "a"); (B "TAGS", B "x  yy")]; tr [(B "TITLE", B "b"); (B "SITE", B "no")]].

Example C23_example :
  fits false false ex_prog /\ flatten ex_prog <> [] /\ calm ex_sources true false ex_prog = true /\
  fst (output no_dates (funcvars_eval []) ex_sources true false ex_prog [] (tr [(B "SITE", B "s")])) = B "s: x,yy,[b]s".
Proof. repeat split; try discriminate; vm_compute; reflexivity. Qed.

(* ---- C24 ---- *)

(* False as stated: FOO_0 is not cut, and a DATE_FORMATTED of the user is not
   used for DATE_FORMATTED_4. *)
Theorem C24_resolution_refuted :
  (exists g, trie_lookup g (B "FOO_0") = None /\ trie_lookup g (B "FOO") = Some (B "x") /\
     format_variable no_dates [] (B "FOO_0") g None None None = Ok (Some (B "x"), g)) /\
  (exists g, trie_lookup g (B "DATE_FORMATTED") = Some (B "mine") /\
     trie_lookup g (B "DATE_FORMATTED_4") = None /\
     format_variable no_dates [] (B "DATE_FORMATTED_4") g None None None <> Ok (Some (B "mine"), g) /\
     format_variable no_dates [] (B "DATE_FORMATTED") g None None None = Ok (Some (B "mine"), g)).
Proof.
  split.
  - exists (tr [(B "FOO", B "x")]). repeat split; vm_compute; reflexivity.
  - exists (tr [(B "DATE_FORMATTED", B "mine"); (B "DATE", B "2020-01-01")]).
    split; [vm_compute; reflexivity|]. split; [vm_compute; reflexivity|]. split; [|vm_compute; reflexivity].
    vm_compute. discriminate.
Qed.
Print Assumptions C24_resolution_refuted.

(* A variable of exactly that name wins over every other reading: first the
   source, then the configuration. *)
Theorem C24_source_first convert funcs name g l fname fitem v :
  trie_lookup l name = Some v -> format_variable convert funcs name g (Some l) fname fitem = Ok (Some v, g).
Proof. intro H. unfold format_variable, get_variable. rewrite H. reflexivity. Qed.
Print Assumptions C24_source_first.

Theorem C24_global_second convert funcs name g local fname fitem v :
  (forall l, local = Some l -> trie_lookup l name = None) -> trie_lookup g name = Some v ->
  format_variable convert funcs name g local fname fitem = Ok (Some v, g).
Proof.
  intros H Hg. unfold format_variable, get_variable. destruct local as [l|]; [rewrite (H l eq_refl)|]; rewrite Hg; reflexivity.
Qed.
Print Assumptions C24_global_second.

(* The complete account: every non-empty name resolves as the specification
   says, within a loop over [fst lp] at the word [snd lp] or outside. *)
Theorem C24_resolution_exact convert funcs name g l lp : name <> [] ->
  format_variable convert funcs name g l (option_map fst lp) (option_map snd lp) =
  Ok (resolve convert (funcvars_eval funcs) name g l lp).
Proof. apply format_variable_resolve. Qed.
Print Assumptions C24_resolution_exact.

Definition reserved (v : bytes) : Prop := v = B "FOREACH_ITEM" \/ v = B "FOREACH_VALUE".

Lemma span_all d x : forallb is_digit d = true -> match x with [] => True | c :: _ => is_digit c = false end ->
  span_digits (d ++ x) = (d, x).
Proof.
  induction d as [|c d IH]; cbn; intros H Hx.
  - destruct x as [|c x]; [reflexivity|]. cbn. rewrite Hx. reflexivity.
  - apply andb_prop in H. destruct H as [-> H]. rewrite (IH H Hx). reflexivity.
Qed.
Lemma forallb_rev (p : ascii -> bool) d : forallb p (rev d) = forallb p d.
Proof.
  induction d as [|c d IH]; [reflexivity|]. cbn. rewrite forallb_app, IH. cbn. rewrite andb_true_r. apply andb_comm.
Qed.
Lemma size_suffix_app base d : forallb is_digit d = true -> d <> [] ->
  size_suffix (base ++ B "_" ++ d) = Some (base, d).
Proof.
  intros Hd Hn. unfold size_suffix. rewrite !rev_app_distr, <- app_assoc.
  rewrite span_all; [|rewrite forallb_rev; exact Hd|reflexivity]. change (rev (B "_")) with ["_"%char]. cbn.
  destruct (beq (rev d) []) eqn:E.
  { apply beq_eq in E. apply (f_equal (@rev ascii)) in E. rewrite rev_involutive in E. cbn in E. congruence. }
  cbn. rewrite !rev_involutive. reflexivity.
Qed.

(* A name that nothing defines and that has no special form is empty. *)
Theorem C24_undefined convert funcs name g local lp : name <> [] ->
  lookup name g local = None -> ~ reserved name -> size_suffix name = None -> formatted_suffix name = None ->
  ~ In name (map fst funcs) ->
  format_variable convert funcs name g local (option_map fst lp) (option_map snd lp) = Ok (None, g).
Proof.
  intros Hn Hl Hr Hs Hf Hfn. rewrite C24_resolution_exact by exact Hn. f_equal. unfold resolve. rewrite Hl, Hs, Hf.
  assert (E1 : beq name (B "FOREACH_ITEM") = false) by (apply beq_neq; intros ->; apply Hr; left; reflexivity).
  assert (E2 : beq name (B "FOREACH_VALUE") = false) by (apply beq_neq; intros ->; apply Hr; right; reflexivity).
  rewrite E1, E2. cbn [orb].
  assert (Ei : funcvars_eval funcs g name = g).
  { unfold funcvars_eval. destruct (trie_lookup g name); [reflexivity|].
    destruct (find (fun f => beq name (fst f)) funcs) as [f|] eqn:E; [|reflexivity].
    apply find_some in E. destruct E as [E1' E2']. apply beq_eq in E2'. exfalso. apply Hfn. rewrite E2'. apply in_map. exact E1'. }
  destruct lp as [[n w]|]; rewrite ?Ei, Hl; reflexivity.
Qed.
Print Assumptions C24_undefined.

Lemma lookup_eval funcs g base local v : lookup base g local = Some v ->
  lookup base (funcvars_eval funcs g base) local = Some v.
Proof.
  unfold lookup, funcvars_eval. destruct local as [l|]; [destruct (trie_lookup l base); [auto|]|];
    intro H; rewrite H; exact H.
Qed.
Lemma first_bytes_firstn n v : first_bytes n v = firstn (N.to_nat n) v.
Proof.
  unfold first_bytes. destruct (N.leb_spec (N.of_nat (length v)) n); [|reflexivity].
  rewrite firstn_all2; [reflexivity|lia].
Qed.
Definition fmap_value (r : res (option bytes * vars)) : option bytes := match r with Ok (v, _) => v | _ => None end.

(* FOO_N, when undefined, is the first N bytes of FOO: N is not 0, FOO does not
   itself end in _FORMATTED and is not one of the two names of loops. *)
Theorem C24_size_partial convert funcs base d g local lp v : forallb is_digit d = true -> d <> [] ->
  (0 < decimal d < 2 ^ 63)%N ->
  ~ reserved base -> formatted_suffix base = None ->
  lookup (base ++ B "_" ++ d) g local = None -> lookup base g local = Some v ->
  format_variable convert funcs (base ++ B "_" ++ d) g local (option_map fst lp) (option_map snd lp)
  = Ok (Some (firstn (N.to_nat (decimal d)) v), funcvars_eval funcs g base).
Proof.
  intros Hd Hdn Hdec Hr Hf Hl Hb.
  assert (Hn : base ++ B "_" ++ d <> []) by (destruct base; discriminate).
  rewrite C24_resolution_exact by exact Hn. f_equal. unfold resolve. rewrite Hl, (size_suffix_app base Hd Hdn), Hf.
  assert (E1 : beq base (B "FOREACH_ITEM") = false) by (apply beq_neq; intros ->; apply Hr; left; reflexivity).
  assert (E2 : beq base (B "FOREACH_VALUE") = false) by (apply beq_neq; intros ->; apply Hr; right; reflexivity).
  assert (ED : is_digit (last (base ++ B "_" ++ d) NUL) = true).
  { destruct (exists_last Hdn) as (d' & c & ->). rewrite !app_assoc, last_last.
    rewrite forallb_app in Hd. apply andb_prop in Hd. destruct Hd as [_ Hd]. cbn in Hd. rewrite andb_true_r in Hd. exact Hd. }
  assert (E3 : beq (base ++ B "_" ++ d) (B "FOREACH_ITEM") = false) by (apply beq_neq; intro E; rewrite E in ED; discriminate).
  assert (E4 : beq (base ++ B "_" ++ d) (B "FOREACH_VALUE") = false) by (apply beq_neq; intro E; rewrite E in ED; discriminate).
  rewrite E3, E4. cbn [orb].
  assert (Ei : lookup base (funcvars_eval funcs g base) local = Some v) by (apply lookup_eval; exact Hb).
  assert (Em : N.min (decimal d) (2 ^ 63 - 1) = decimal d) by (apply N.min_l; lia).
  assert (Ez : N.eqb (decimal d) 0 = false) by (apply N.eqb_neq; lia).
  rewrite Em.
  destruct lp as [[n w]|]; rewrite ?E1, ?E2, Ei; cbn [option_map andb]; rewrite Ez, first_bytes_firstn; reflexivity.
Qed.
Print Assumptions C24_size_partial.

(* DATE_..._FORMATTED, when undefined, is the date in the format DATE_FORMAT, or
   as it is when there is no format or it cannot be converted; any other
   FOO_FORMATTED is FOO. *)
Theorem C24_formatted convert funcs base g local lp v :
  ~ reserved base -> lookup (base ++ B "_FORMATTED") g local = None -> lookup base g local = Some v ->
  format_variable convert funcs (base ++ B "_FORMATTED") g local (option_map fst lp) (option_map snd lp)
  = Ok (Some (if starts_with (base ++ B "_FORMATTED") (B "DATE_") then
                match lookup (B "DATE_FORMAT") (funcvars_eval funcs g base) local with
                | Some f => match convert v f with Some r => r | None => v end
                | None => v
                end
              else v), funcvars_eval funcs g base).
Proof.
  intros Hr Hl Hb. set (name := base ++ B "_FORMATTED") in *.
  assert (Hn : name <> []) by (unfold name; destruct base; discriminate).
  rewrite C24_resolution_exact by exact Hn. f_equal. unfold resolve. rewrite Hl.
  assert (Hlast : last name NUL = "D"%char).
  { unfold name. change (B "_FORMATTED") with (B "_FORMATTE" ++ ["D"%char]). rewrite app_assoc, last_last. reflexivity. }
  assert (E3 : beq name (B "FOREACH_ITEM") = false) by (apply beq_neq; intro E; rewrite E in Hlast; discriminate).
  assert (E4 : beq name (B "FOREACH_VALUE") = false) by (apply beq_neq; intro E; rewrite E in Hlast; discriminate).
  assert (Es : size_suffix name = None).
  { unfold size_suffix, name. rewrite rev_app_distr. reflexivity. }
  assert (Ef : formatted_suffix name = Some base).
  { unfold formatted_suffix, name. rewrite rev_app_distr.
    change (rev (B "_FORMATTED")) with (rev (B "_FORMATTED") ++ []). 
    rewrite app_nil_r. rewrite firstn_app, skipn_app.
    change (firstn 10 (rev (B "_FORMATTED"))) with (rev (B "_FORMATTED")).
    change (skipn 10 (rev (B "_FORMATTED"))) with (@nil ascii).
    change (10 - length (rev (B "_FORMATTED"))) with 0. cbn [firstn skipn app]. rewrite app_nil_r, !rev_involutive, beq_refl. reflexivity. }
  rewrite E3, E4, Es, Ef. cbn [orb].
  assert (E1 : beq base (B "FOREACH_ITEM") = false) by (apply beq_neq; intros ->; apply Hr; left; reflexivity).
  assert (E2 : beq base (B "FOREACH_VALUE") = false) by (apply beq_neq; intros ->; apply Hr; right; reflexivity).
  assert (Ei : lookup base (funcvars_eval funcs g base) local = Some v) by (apply lookup_eval; exact Hb).
  destruct lp as [[n w]|]; rewrite ?E1, ?E2, Ei; cbn [option_map andb]; reflexivity.
Qed.
Print Assumptions C24_formatted.

(* Inside a loop FOREACH_ITEM is the word, and FOREACH_VALUE the variable named
   after the list and the word. *)
Theorem C24_loop_names convert funcs g local list word :
  lookup (B "FOREACH_ITEM") g local = None -> lookup (B "FOREACH_VALUE") g local = None ->
  format_variable convert funcs (B "FOREACH_ITEM") g local (Some list) (Some word) = Ok (Some word, g) /\
  format_variable convert funcs (B "FOREACH_VALUE") g local (Some list) (Some word)
    = Ok (lookup (map shout list ++ B "__" ++ map shout word) g local, g).
Proof.
  intros H1 H2. split; rewrite (@C24_resolution_exact convert funcs _ g local (Some (list, word))) by discriminate;
    unfold resolve; [rewrite H1|rewrite H2]; reflexivity.
Qed.
Print Assumptions C24_loop_names.

Definition some_date (d f : bytes) : option bytes := Some (f ++ B "<" ++ d ++ B ">").
Definition ex_global : trie bytes :=
  tr [(B "TITLE", B "global"); (B "DATE", B "2020-01-02"); (B "DATE_FORMAT", B "%d"); (B "TAGS__A_B", B "val")].
Example C24_example :
  let v name local lp := fmap_value (format_variable some_date [] name ex_global local (option_map fst lp) (option_map snd lp)) in
  v (B "TITLE") (Some (tr [(B "TITLE", B "local")])) None = Some (B "local") /\
  v (B "TITLE") None None = Some (B "global") /\
  v (B "TITLE_3") None None = Some (B "glo") /\
  v (B "DATE_FORMATTED") None None = Some (B "%d<2020-01-02>") /\
  v (B "FOREACH_VALUE") None (Some (B "tags", B "a-b")) = Some (B "val") /\
  v (B "OTHER") None None = None.
Proof. repeat split; vm_compute; reflexivity. Qed.
