(* Source files whose content is a document. *)
From Coq Require Import ZArith.
From Verif Require Import Base Utils UtilsProofs Trie TrieProofs Toctree ToctreeSpec ToctreeProofs Content InlineSpec InlineProofs
  BlockSpec BlockProofs BlockTerm BlockOut BlockLoop DocSpec BlockFwd BlockLine BlockDoc ContentSpec ContentText Source SourceSpec SourceProofs.
#[local] Arguments B : simpl never.

(* ---------- documents ---------- *)
Lemma render_table hs d e : (- 2 ^ 31 <= d < 2 ^ 31)%Z -> (forall h, In h hs -> 0 < h_level h /\ (Z.of_nat (h_level h) < 2 ^ 63)%Z) ->
  exists t, toctree_render hs d (Some e) = Ok t /\ table hs d e t.
Proof.
  intros Hr Hh. destruct hs as [|h hs]; [exists None; split; [reflexivity|left; auto]|].
  destruct (Z.eq_dec d 0) as [->|Hd]; [exists None; split; [reflexivity|left; auto]|].
  destruct (@toctree_spec (h :: hs) d (Some e)) as (low & l & H1 & _ & H3 & H4); [discriminate|exact Hd|exact Hr|exact Hh|].
  eexists. split; [exact H3|]. right. split; [discriminate|]. split; [exact Hd|]. exists low, l. cbn [toc_endl]. tauto.
Qed.
Lemma strndup_app (a r : bytes) : no_nul a -> strndup (a ++ r) (length a) = a.
Proof. intro H. unfold strndup. rewrite firstn_app, Nat.sub_diag, firstn_all, app_nil_r. apply cstr_id, H. Qed.

(* ---------- no output contains a NUL ---------- *)
Definition nz (x : bytes) : Prop := Forall (fun c => c <> NUL) x.
Lemma nz_iff x : nz x <-> no_nul x.
Proof. unfold nz. rewrite Forall_forall. unfold no_nul. firstorder congruence. Qed.
Lemma nz_app x y : nz (x ++ y) <-> nz x /\ nz y.
Proof. apply Forall_app. Qed.
Lemma nz_cons c y : nz (c :: y) <-> c <> NUL /\ nz y.
Proof. apply Forall_cons_iff. Qed.
Lemma nz_B s : no_nulb (B s) = true -> nz (B s).
Proof. rewrite nz_iff. apply no_nulb_spec. Qed.
Lemma nz_rep c n : c <> NUL -> nz (repeat c n).
Proof. intro H. apply Forall_forall. intros y Hy. apply repeat_spec in Hy. congruence. Qed.
Lemma text_byte_nz c e : text_byte c e -> c <> NUL -> nz e.
Proof. intros H Hc. destruct H; try (apply nz_B; reflexivity). repeat constructor. exact Hc. Qed.
Lemma text_bytes_nz s t : text_bytes s t -> nz s -> nz t.
Proof.
  induction 1 as [|c e s t H1 H2 IH]; intro H; [constructor|]. apply nz_cons in H. apply nz_app. split; [apply (text_byte_nz H1), H|apply IH, H].
Qed.
Lemma unbackslash_nz : forall s, nz s -> nz (unbackslash s).
Proof.
  assert (K : forall n s, length s <= n -> nz s -> nz (unbackslash s)).
  { induction n as [|n IH]; intros [|c r] Hn H; cbn [length] in Hn; try (constructor; fail); try lia.
    apply nz_cons in H. destruct H as [Hc H]. cbn [unbackslash]. destruct (c == BSL).
    - destruct r as [|d r]; [constructor|]. apply nz_cons in H. destruct H. apply nz_cons. split; [assumption|]. apply IH; [cbn [length] in Hn; lia|assumption].
    - apply nz_cons. split; [assumption|]. apply IH; [lia|assumption]. }
  intros s. apply (@K (length s)). lia.
Qed.
Lemma means_nz x y : means x y -> nz x -> nz y.
Proof.
  unfold means. generalize true. intro top.
  induction 1; intro N; repeat rewrite ?nz_app, ?nz_cons in *;
    repeat match goal with
    | |- _ /\ _ => split
    | |- nz (B _) => apply nz_B; reflexivity
    | |- nz (repeat _ _) => apply nz_rep; discriminate
    | |- nz (unbackslash _) => apply unbackslash_nz; tauto
    end; try discriminate; try tauto.
  all: first [match goal with H : text_byte _ _ |- _ => apply (text_byte_nz H); tauto end
             |match goal with H : text_bytes _ _ |- _ => apply (text_bytes_nz H); tauto end
             |idtac].
Qed.
Lemma escape_nz t : nz t -> nz (escape t).
Proof.
  induction t as [|c t IH]; intro H; [constructor|]. apply nz_cons in H. destruct H as [Hc H]. unfold escape. cbn [flat_map]. apply nz_app. split; [|apply IH, H].
  unfold escape_byte. repeat match goal with |- context [if ?b then _ else _] => destruct b end; try (apply nz_B; reflexivity).
  repeat constructor. exact Hc.
Qed.
Lemma on_line_nz l : on_line l -> nz l.
Proof. intro H. apply nz_iff, on_line_no_nul, H. Qed.
Lemma joined_nz e ls : ending e -> Forall nz ls -> nz (joined e ls).
Proof.
  intros He H. induction H as [|l ls Hl Hls IH]; [constructor|]. cbn [joined]. destruct ls; [exact Hl|].
  rewrite !nz_app. split; [exact Hl|]. split; [apply nz_iff, ending_no_nul, He|exact IH].
Qed.
Lemma Forall_on_nz ls : Forall on_line ls -> Forall nz ls.
Proof. apply Forall_impl, on_line_nz. Qed.
Lemma doc_nz e exc x els : ending e -> doc e exc x els -> Forall (fun y => nz (element_html e y)) els.
Proof.
  intros He. assert (Ne : nz e) by (apply nz_iff, ending_no_nul, He).
  induction 1; try assumption; constructor; try assumption; try match goal with |- Forall _ [] => constructor end; cbn [element_html]; repeat rewrite nz_app.
  - split; [apply nz_B; reflexivity|]. split; [|split; [apply nz_B; reflexivity|exact Ne]]. apply (means_nz (proj1 H2)).
    apply joined_nz; [exact He|]. apply Forall_on_nz, text_on, H0.
  - assert (Nd : nz d). { destruct H4 as (_ & H4 & _). eapply Forall_impl; [|exact H4]. intros a Ha ->. discriminate. }
    assert (Ns : nz s). { clear -H6. induction H6 as [|c d t s Hc H6 IH]; constructor; [|exact IH].
      destruct Hc as (C1 & C2 & C3). intros ->. destruct (is_lower c) eqn:L; [specialize (C1 (or_introl eq_refl)); rewrite <- C1 in L; discriminate|].
      destruct (is_digit c) eqn:D; [specialize (C1 (or_intror eq_refl)); rewrite <- C1 in D; discriminate|].
      destruct (is_upper c) eqn:U; [specialize (C2 eq_refl); destruct C2 as [C2 _]; discriminate|]. specialize (C3 eq_refl eq_refl eq_refl). discriminate. }
    assert (Nh : nz h) by (apply (means_nz (proj1 H3)), on_line_nz, H2).
    repeat split; try assumption; apply nz_B; reflexivity.
  - constructor.
  - split; [apply nz_B; reflexivity|exact Ne].
  - split; [|exact Ne]. apply joined_nz; [exact He|]. apply Forall_on_nz, text_on, H.
  - split; [apply nz_B; reflexivity|]. split; [|split; [apply nz_B; reflexivity|exact Ne]].
    apply joined_nz; [exact He|]. apply Forall_map. constructor; [apply escape_nz, on_line_nz, H1|].
    eapply Forall_impl; [|exact H2]. intros a Ha. apply escape_nz, on_line_nz, Ha.
  - split; [apply nz_B; reflexivity|]. split; [|split; [apply nz_B; reflexivity|exact Ne]].
    unfold doc_html. apply Forall_flat_map. exact IHdoc1.
  - assert (Ni : nz (flat_map (fun h => B "<li>" ++ h ++ B "</li>" ++ e) (map item_html (it :: its)))).
    { apply Forall_flat_map, Forall_map. eapply Forall_impl; [|exact H1]. intros [[[p t] m] h] (I1 & I2 & I3). cbn [item_html].
      rewrite !nz_app. split; [apply nz_B; reflexivity|]. split; [|split; [apply nz_B; reflexivity|exact Ne]].
      apply (means_nz (proj1 I3)), joined_nz; [exact He|]. apply Forall_on_nz. constructor; assumption. }
    repeat split; try assumption; apply nz_B; reflexivity.
  - assert (Ni : nz (flat_map (fun h => B "<li>" ++ h ++ B "</li>" ++ e) (map item_html (it :: its)))).
    { apply Forall_flat_map, Forall_map. eapply Forall_impl; [|exact H0]. intros [[[p t] m] h] (I1 & I2 & I3). cbn [item_html].
      rewrite !nz_app. split; [apply nz_B; reflexivity|]. split; [|split; [apply nz_B; reflexivity|exact Ne]].
      apply (means_nz (proj1 I3)), joined_nz; [exact He|]. apply Forall_on_nz. constructor; assumption. }
    repeat split; try assumption; apply nz_B; reflexivity.
  - split; [apply nz_B; reflexivity|]. split; [|split; [apply nz_B; reflexivity|exact Ne]]. apply (means_nz (proj1 H2)).
    apply joined_nz; [exact He|]. apply Forall_on_nz, text_on, H0.
  - assert (Nd : nz d). { destruct H4 as (_ & H4 & _). eapply Forall_impl; [|exact H4]. intros a Ha ->. discriminate. }
    assert (Ns : nz s). { clear -H6. induction H6 as [|c d t s Hc H6 IH]; constructor; [|exact IH].
      destruct Hc as (C1 & C2 & C3). intros ->. destruct (is_lower c) eqn:L; [specialize (C1 (or_introl eq_refl)); rewrite <- C1 in L; discriminate|].
      destruct (is_digit c) eqn:D; [specialize (C1 (or_intror eq_refl)); rewrite <- C1 in D; discriminate|].
      destruct (is_upper c) eqn:U; [specialize (C2 eq_refl); destruct C2 as [C2 _]; discriminate|]. specialize (C3 eq_refl eq_refl eq_refl). discriminate. }
    assert (Nh : nz h) by (apply (means_nz (proj1 H3)), on_line_nz, H2).
    repeat split; try assumption; apply nz_B; reflexivity.
  - split; [apply nz_B; reflexivity|exact Ne].
  - split; [|exact Ne]. apply joined_nz; [exact He|]. apply Forall_on_nz, text_on, H.
  - split; [apply nz_B; reflexivity|]. split; [|split; [apply nz_B; reflexivity|exact Ne]].
    apply joined_nz; [exact He|]. apply Forall_map. constructor; [apply escape_nz, on_line_nz, H1|].
    eapply Forall_impl; [|exact H2]. intros a Ha. apply escape_nz, on_line_nz, Ha.
  - split; [apply nz_B; reflexivity|]. split; [|split; [apply nz_B; reflexivity|exact Ne]].
    unfold doc_html. apply Forall_flat_map. exact IHdoc.
  - assert (Ni : nz (flat_map (fun h => B "<li>" ++ h ++ B "</li>" ++ e) (map item_html (it :: its)))).
    { apply Forall_flat_map, Forall_map. eapply Forall_impl; [|exact H1]. intros [[[p t] m] h] (I1 & I2 & I3). cbn [item_html].
      rewrite !nz_app. split; [apply nz_B; reflexivity|]. split; [|split; [apply nz_B; reflexivity|exact Ne]].
      apply (means_nz (proj1 I3)), joined_nz; [exact He|]. apply Forall_on_nz. constructor; assumption. }
    repeat split; try assumption; apply nz_B; reflexivity.
  - assert (Ni : nz (flat_map (fun h => B "<li>" ++ h ++ B "</li>" ++ e) (map item_html (it :: its)))).
    { apply Forall_flat_map, Forall_map. eapply Forall_impl; [|exact H0]. intros [[[p t] m] h] (I1 & I2 & I3). cbn [item_html].
      rewrite !nz_app. split; [apply nz_B; reflexivity|]. split; [|split; [apply nz_B; reflexivity|exact Ne]].
      apply (means_nz (proj1 I3)), joined_nz; [exact He|]. apply Forall_on_nz. constructor; assumption. }
    repeat split; try assumption; apply nz_B; reflexivity.
Qed.
Lemma excerpt_split e : forall l done cut, (forall c, cut = Some c -> exists r, done = c ++ r) -> forall c, excerpt e done cut l = Some c ->
    exists r, done ++ doc_html e l = c ++ r.
Proof.
  induction l as [|a l IH]; intros done cut Hcut c E.
  - cbn in E |- *. rewrite app_nil_r. apply Hcut, E.
  - cbn [excerpt] in E. unfold doc_html. cbn [flat_map]. rewrite app_assoc. eapply IH; [|exact E].
    intros d Hd'. assert (Y : d = done \/ cut = Some d) by (destruct a; auto; left; congruence).
    destruct Y as [->|Y]; [eauto|]. destruct (Hcut d Y) as [r ->]. rewrite <- app_assoc. eauto.
Qed.

Theorem source_doc fuel md l g sep x e els : Forall entry_ok l -> gap g -> separator sep -> body x ->
  lines_end x e -> doc e true x els -> length x < fuel -> (Z.of_nat (length x) < 2 ^ 63)%Z -> (- 2 ^ 31 <= md < 2 ^ 31)%Z ->
  (headers els <> [] -> assigned l (B "TOCTREE") = None -> exists d, depth md (assigned l (B "TOCTREE_MAXDEPTH")) d) ->
  exists t, source_parse fuel (entries_src l ++ g ++ sep ++ x) md = Ok (Good t) /\
    trie_lookup t (B "RAW_CONTENT") = Some x /\
    trie_lookup t (B "CONTENT") = Some (doc_html e els) /\
    trie_lookup t (B "EXCERPT") = Some (excerpt_html e els) /\
    trie_lookup t (B "FIRST_HEADER") = or_else (assigned l (B "FIRST_HEADER")) (first_header els) /\
    trie_lookup t (B "DESCRIPTION") = or_else (assigned l (B "DESCRIPTION")) (description els) /\
    (forall v, assigned l (B "TOCTREE") = Some v -> trie_lookup t (B "TOCTREE") = Some v) /\
    (assigned l (B "TOCTREE") = None -> headers els = [] -> trie_lookup t (B "TOCTREE") = None) /\
    (assigned l (B "TOCTREE") = None -> headers els <> [] ->
       exists d, depth md (assigned l (B "TOCTREE_MAXDEPTH")) d /\ table (headers els) d e (trie_lookup t (B "TOCTREE"))) /\
    forall k, no_nul k -> ~ In k set_for_you -> trie_lookup t k = assigned l k.
Proof.
  intros Hl Hg Hs Hx Hxe Hd Hf Hlen Hmd Hdep. pose proof (proj1 Hxe) as He.
  set (asked := match assigned l (B "TOCTREE") with None => true | Some _ => false end).
  assert (Hc : cnt x < fuel) by (pose proof (count_occ_bound ascii_dec ">"%char x); unfold cnt; lia).
  destruct (@doc_content fuel (BO true true true asked) e x els None Hxe Hd (or_introl eq_refl) Hc) as (b & Hb & B1 & B2 & B3 & B4 & B5 & B6).
  cbn [o_fh o_desc o_hdrs] in B3, B4, B5.
  pose proof (content_line Hb) as (_ & Hlev).
  rewrite (parse_content md Hl Hg Hs Hx Hb). unfold content_outcome.
  change (heads els) with (headers els) in B5.
  assert (EX : (if Nat.eqb (b_exc b) 0 then b_rv b else strndup (b_rv b) (b_exc b)) = excerpt_html e els).
  { rewrite B1, B2. unfold excerpt_html. destruct (excerpt e [] None els) as [[|c0 c]|] eqn:Ee; [reflexivity| |reflexivity].
    destruct (@excerpt_split e els [] None ltac:(discriminate) (c0 :: c) Ee) as [r Er]. cbn [app] in Er. rewrite Er. cbn [length Nat.eqb].
    apply (@strndup_app (c0 :: c) r). apply nz_iff. assert (N : nz (doc_html e els)) by (apply Forall_flat_map, (doc_nz He Hd)).
    rewrite Er in N. change (c0 :: c ++ r) with ((c0 :: c) ++ r) in N. apply nz_app in N. apply N. }
  assert (OR : forall a o', match a with Some v => Some v | None => o' end = @or_else bytes a o') by (intros [?|] ?; reflexivity).
  destruct (b_hdrs b) as [|h0 hs0] eqn:Eh.
  - pose proof (@done_vars fuel l x b Hl Hb None ltac:(reflexivity)) as (V1 & V2 & V3 & V4 & V5 & V6 & V7).
    eexists. split; [reflexivity|]. rewrite EX in V3. rewrite B1 in V2. rewrite B3, OR in V4. rewrite B4, OR in V5.
    repeat (split; [assumption|]). split; [intros v Hv; rewrite V6, Hv; reflexivity|].
    split; [intros Ha _; rewrite V6, Ha; reflexivity|]. split; [|exact V7].
    intros Ha Hne. unfold asked in B5. rewrite Ha in B5. congruence.
  - assert (Ha : assigned l (B "TOCTREE") = None) by (unfold asked in B5; destruct (assigned l (B "TOCTREE")); [discriminate|reflexivity]).
    unfold asked in B5. rewrite Ha in B5. rewrite B5 in *.
    assert (Hne : headers els <> []) by congruence. destruct (Hdep Hne Ha) as (d & Hdd).
    assert (Edepth : match assigned l (B "TOCTREE_MAXDEPTH") with
             | None => Some md
             | Some m => let '(z, r) := strtol m in match m, r with _ :: _, _ :: _ => None | _, _ => Some (to_int z) end
             end = Some d /\ (- 2 ^ 31 <= d < 2 ^ 31)%Z).
    { unfold depth in Hdd. destruct (assigned l (B "TOCTREE_MAXDEPTH")) as [m|].
      - pose proof (integer_strtol Hdd) as [-> Et]. rewrite Et. split; [destruct m; reflexivity|apply Hdd].
      - rewrite Hdd. auto. }
    destruct Edepth as [-> Hdr].
    destruct (@render_table (headers els) d e Hdr) as (t & Et & Ht).
    { intros h Hh. rewrite Forall_forall in Hlev. apply Hlev in Hh. lia. }
    rewrite B6, Et. cbn [rbind].
    pose proof (@done_vars fuel l x b Hl Hb t ltac:(intros v Hv; congruence)) as (V1 & V2 & V3 & V4 & V5 & V6 & V7).
    eexists. split; [reflexivity|]. rewrite EX in V3. rewrite B1 in V2. rewrite B3, OR in V4. rewrite B4, OR in V5. rewrite Ha in V6.
    repeat (split; [assumption|]). split; [intros v Hv; congruence|].
    split; [intros _ Hz; congruence|]. split; [|exact V7]. intros _ _. exists d. rewrite V6. auto.
Qed.
