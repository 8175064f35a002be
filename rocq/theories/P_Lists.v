(* Properties C31 and C32: tables of contents and file lists. *)
From Verif Require Import Base Utils UtilsProofs Toctree ToctreeSpec ToctreeProofs Filelist FilelistSpec FilelistProofs.

(* ---- C31 ---- *)

(* For every list of headers and every depth but 0 the output is one nested list,
   one line per entry, balanced, without empty lists, with exactly the headers
   within the depth, in order, each at the depth of its level. *)
Theorem C31_toctree hs maxdepth endl : hs <> [] -> maxdepth <> 0%Z -> (- 2 ^ 31 <= maxdepth < 2 ^ 31)%Z ->
  (forall h, In h hs -> 0 < h_level h /\ (Z.of_nat (h_level h) < 2 ^ 63)%Z) ->
  exists low l, lowest hs low /\ 0 < low /\
    toctree_render hs maxdepth endl = Ok (Some (text_at (match endl with None => [LF] | Some e => e end) 0 l)) /\
    depth_after 0 l = Some 0 /\ one_list l /\ no_empty_list l /\
    items_at 0 l = map (fun h => (h_level h - low + 1, h)) (filter (shown low maxdepth) hs).
Proof. apply toctree_spec. Qed.
Print Assumptions C31_toctree.

(* Depth 0 or no header: nothing. *)
Theorem C31_nothing hs maxdepth endl : hs = [] \/ maxdepth = 0%Z -> toctree_render hs maxdepth endl = Ok None.
Proof. intros [->| ->]; [reflexivity|]. destruct hs; reflexivity. Qed.
Print Assumptions C31_nothing.

(* The lists that toctree_append builds have no header of level 0. *)
Theorem C31_append hs level slug text : (forall h, In h hs -> 0 < h_level h) ->
  forall h, In h (toctree_append hs level slug text) -> 0 < h_level h.
Proof.
  intros H h. unfold toctree_append. destruct (Nat.eqb_spec level 0); [apply H|].
  intro Hi. apply in_app_or in Hi. destruct Hi as [Hi|[<-|[]]]; [apply H, Hi|cbn; lia].
Qed.
Print Assumptions C31_append.

Definition ex_headers : list header :=
  [Header 3 (Some (B "a")) (Some (B "A")); Header 2 (Some (B "b")) (Some (B "B")); Header 4 None (Some (B "C"))].
Example C31_example :
  toctree_render ex_headers 2 (Some (B "|")) =
    Ok (Some (B "<ul>|    <ul>|        <li><a href=""#a"">A</a></li>|    </ul>|    <li><a href=""#b"">B</a></li>|</ul>|")) /\
  exists low l, lowest ex_headers low /\ toctree_render ex_headers 2 (Some (B "|")) = Ok (Some (text_at (B "|") 0 l)) /\
    items_at 0 l = [(2, Header 3 (Some (B "a")) (Some (B "A"))); (1, Header 2 (Some (B "b")) (Some (B "B")))].
Proof.
  split; [vm_compute; reflexivity|]. exists 2, [EOpen; EOpen; EItem (Header 3 (Some (B "a")) (Some (B "A"))); EClose; EItem (Header 2 (Some (B "b")) (Some (B "B"))); EClose].
  split; [|split; vm_compute; reflexivity]. split.
  - exists (Header 2 (Some (B "b")) (Some (B "B"))). split; [right; left; reflexivity|reflexivity].
  - intros h [<-|[<-|[<-|[]]]]; cbn; lia.
Qed.

(* ---- C32 ---- *)

(* The entries are the lines that are neither blank nor comments, stripped. *)
Theorem C32_filelist src : exists l, filelist_parse src = Ok l /\
  Forall2 (fun line p => stripped (cstr line) (snd p)) (filter wanted (lines src)) l.
Proof.
  destruct (filelist_free_spec src) as (l & H1 & H2 & _). exists l. split; [exact H1|]. clear H1. unfold entries in H2.
  revert l H2. induction (filter wanted (lines src)) as [|x ls IH]; intros [|p l] H2; try discriminate; constructor.
  - cbn in H2. injection H2 as -> _. apply strip_stripped.
  - apply IH. cbn in H2. congruence.
Qed.
Print Assumptions C32_filelist.

(* Releasing the list is undefined exactly when a line starts, after spaces and
   tabs, with a VT or FF before its text: strip moved the pointer. *)
Theorem C32_free_exact src : exists l, filelist_parse src = Ok l /\
  filelist_free l = if existsb (fun l => wanted l && odd_start l) (lines src) then UB else Ok tt.
Proof. destruct (filelist_free_spec src) as (l & H1 & _ & H2). eauto. Qed.
Print Assumptions C32_free_exact.

Theorem C32_free_refuted : exists src l, filelist_parse src = Ok l /\ filelist_free l = UB.
Proof. exists (VT :: B "a.txt"). eexists. split; vm_compute; reflexivity. Qed.
Print Assumptions C32_free_refuted.

Example C32_example :
  let src := B "# c" ++ [LF] ++ B " a b.txt " ++ [CR; LF; LF] ++ B "   # d" ++ [LF; TAB] ++ B "e" in
  entries src = [B "a b.txt"; B "e"] /\ existsb (fun l => wanted l && odd_start l) (lines src) = false.
Proof. vm_compute. auto. Qed.
