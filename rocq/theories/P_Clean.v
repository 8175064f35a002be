(* C52: what blogc-make clean removes; C69: that it removes all that was built. *)
From Verif Require Import Base Trie Settings MainSpec FilenameSpec P_Filename ReceiverSpec ReceiverProofs BlogcCmd Rules RulesSpec BuildSpec P_Build Native.
From Verif Require Import Filename Source.
From Verif Require Content P_Rules.
From Coq Require Import ZArith.
#[local] Open Scope nat_scope.

(* a path that does not end with a slash *)
Definition solid (p : bytes) : Prop := exists q c, p = q ++ [c] /\ c <> "/"%char.
(* a directory of the output: the output directory or one below it *)
Definition inside (out d : bytes) : Prop := d = out \/ exists e, d = out ++ B "/" ++ e.
(* a directory is empty, or not there at all *)
Definition empty_dir (l : listing) : Prop :=
  l = Missing \/ exists es, l = Entries es true /\ forall e, In e es -> e = B "." \/ e = B "..".

(* ---- dirname ---- *)
Lemma skip_slashes_spec r : exists sl, r = sl ++ skip_slashes r /\ Forall (eq "/"%char) sl
  /\ (skip_slashes r = [] \/ exists c t, skip_slashes r = c :: t /\ c <> "/"%char).
Proof.
  induction r as [|c r IH]; cbn [skip_slashes]; [exists []; auto|]. destruct (c == "/"%char) eqn:E.
  - apply eqb_true in E. subst c. destruct IH as (sl & E & F & H). exists ("/"%char :: sl). split; [cbn [app]; rewrite <- E; reflexivity|]. split; [constructor; auto|exact H].
  - apply eqb_false in E. exists []. split; [reflexivity|]. split; [constructor|]. right. exists c, r. auto.
Qed.
Lemma skip_name_spec r : exists nm, r = nm ++ skip_name r /\ Forall (fun c => c <> "/"%char) nm
  /\ (skip_name r = [] \/ exists t, skip_name r = "/"%char :: t).
Proof.
  induction r as [|c r IH]; cbn [skip_name]; [exists []; auto|]. destruct (c == "/"%char) eqn:E.
  - apply eqb_true in E. subst c. exists []. split; [reflexivity|]. split; [constructor|]. right. eexists. reflexivity.
  - apply eqb_false in E. destruct IH as (nm & En & F & H). exists (c :: nm). split; [cbn [app]; rewrite <- En; reflexivity|]. split; [constructor; auto|exact H].
Qed.
Lemma skip_slashes_over sl r : Forall (eq "/"%char) sl -> skip_slashes (sl ++ r) = skip_slashes r.
Proof. induction 1 as [|c sl <- _ IH]; [reflexivity|]. exact IH. Qed.
Lemma skip_name_over nm r : Forall (fun c => c <> "/"%char) nm -> skip_name (nm ++ "/"%char :: r) = "/"%char :: r.
Proof. induction 1 as [|c nm H _ IH]; [reflexivity|]. cbn [app skip_name]. apply eqb_neq in H. rewrite H. exact IH. Qed.
Lemma forall_rev {A} (P : A -> Prop) l : Forall P l -> Forall P (rev l).
Proof. intro H. apply Forall_forall. intros x Hx. apply in_rev in Hx. rewrite Forall_forall in H. auto. Qed.
Lemma solid_rev p : solid p <-> exists c t, rev p = c :: t /\ c <> "/"%char.
Proof.
  split.
  - intros (q & c & -> & H). exists c, (rev q). rewrite rev_app_distr. auto.
  - intros (c & t & E & H). exists (rev t), c. split; [|exact H]. rewrite <- (rev_involutive p), E. reflexivity.
Qed.
Lemma dirname_cut y sl nm : solid y -> Forall (eq "/"%char) sl -> sl <> [] -> Forall (fun c => c <> "/"%char) nm -> nm <> [] ->
  dirname (y ++ sl ++ nm) = y.
Proof.
  intros Hy Hs Hs0 Hn Hn0. unfold dirname. rewrite !rev_app_distr, <- app_assoc.
  apply forall_rev in Hs, Hn. assert (rev sl <> []) as Hs1 by (intro E; apply Hs0; rewrite <- (rev_involutive sl), E; reflexivity).
  assert (rev nm <> []) as Hn1 by (intro E; apply Hn0; rewrite <- (rev_involutive nm), E; reflexivity).
  destruct (rev nm) as [|c t] eqn:En; [contradiction|]. destruct (rev sl) as [|c' sl'] eqn:Es; [contradiction|].
  assert (Hc : c <> "/"%char) by (inversion Hn; assumption). cbn [app skip_slashes]. rewrite (proj2 (eqb_neq _ _) Hc).
  assert (c' = "/"%char) as -> by (inversion Hs; auto).
  change (c :: t ++ "/"%char :: sl' ++ rev y) with ((c :: t) ++ "/"%char :: (sl' ++ rev y)). rewrite skip_name_over by exact Hn.
  change ("/"%char :: sl' ++ rev y) with (("/"%char :: sl') ++ rev y). cbn [app].
  pose proof (skip_slashes_over (rev y) Hs) as K. cbn [app skip_slashes] in K. cbv iota zeta. rewrite K. clear K.
  apply solid_rev in Hy. destruct Hy as (d & u & E & Hd). rewrite E. cbn [skip_slashes]. rewrite (proj2 (eqb_neq _ _) Hd). cbn [app].
  rewrite <- E. apply rev_involutive.
Qed.
(* the part of a path after a directory: nothing, or a slash and more *)
Definition tail (e : bytes) : Prop := exists t, e = "/"%char :: t /\ solid e.
Lemma tail_cut e : tail e -> exists e' sl nm, e = e' ++ sl ++ nm /\ (e' = [] \/ tail e') /\ Forall (eq "/"%char) sl /\ sl <> []
  /\ Forall (fun c => c <> "/"%char) nm /\ nm <> [].
Proof.
  intros (t & Et & Hs). apply solid_rev in Hs. destruct Hs as (c & u & Er & Hc).
  destruct (skip_name_spec (rev e)) as (nm & En & Fn & Hn). set (r := skip_name (rev e)) in *.
  destruct (skip_slashes_spec r) as (sl & Es & Fs & Hs). set (x := skip_slashes r) in *.
  exists (rev x), (rev sl), (rev nm).
  assert (Hr : r <> []).
  { intro E. rewrite E, app_nil_r in En. assert (In "/"%char nm) as I by (rewrite <- En; apply in_rev; rewrite rev_involutive, Et; left; reflexivity).
    rewrite Forall_forall in Fn. exact (Fn _ I eq_refl). }
  assert (Hsl : sl <> []).
  { intro E. rewrite E in Es. cbn [app] in Es. destruct Hn as [Hn|(t' & Hn)]; [contradiction|]. destruct Hs as [Hs|(c' & t'' & Hs & Hc')]; congruence. }
  assert (Hnm : nm <> []).
  { intro E. rewrite E in En. cbn [app] in En. destruct Hn as [Hn|(t' & Hn)]; [contradiction|]. rewrite Hn, Er in En. injection En as -> _. contradiction. }
  split; [rewrite <- !rev_app_distr, <- app_assoc, <- Es, <- En; symmetry; apply rev_involutive|].
  split; [|split; [apply forall_rev; exact Fs|split; [intro E; apply Hsl; rewrite <- (rev_involutive sl), E; reflexivity|split; [apply forall_rev; exact Fn|intro E; apply Hnm; rewrite <- (rev_involutive nm), E; reflexivity]]]].
  destruct Hs as [Hs|(c' & t' & Hs & Hc')]; [left; rewrite Hs; reflexivity|right].
  assert (X : e = rev x ++ rev (nm ++ sl)).
  { rewrite <- rev_app_distr, <- app_assoc, <- Es, <- En. symmetry. apply rev_involutive. }
  destruct (rev x) as [|a b] eqn:Ex; [apply (f_equal (@rev ascii)) in Ex; rewrite rev_involutive in Ex; rewrite Ex in Hs; discriminate|].
  rewrite Et in X. cbn [app] in X. injection X as <- _. exists b. split; [reflexivity|]. rewrite <- Ex. apply solid_rev. exists c', t'. rewrite rev_involutive. auto.
Qed.
Lemma solid_app p e : solid e -> solid (p ++ e).
Proof. intros (q & c & -> & H). exists (p ++ q), c. rewrite app_assoc. auto. Qed.

Section Rm.
Variable W : Type.
Variable unlink : W -> bytes -> W * bool.
Variable entries : W -> bytes -> listing.
Variable rmdir : W -> bytes -> W * bool.

Lemma is_empty_spec w d : is_empty_dir entries w d = Some true <-> empty_dir (entries w d).
Proof.
  unfold is_empty_dir, empty_dir. destruct (entries w d) as [| |l closed].
  - split; [left; reflexivity|reflexivity].
  - split; [discriminate|]. intros [E|(es & E & _)]; discriminate.
  - destruct closed.
    + split.
      * intro E. apply (f_equal (fun x => match x with Some b => b | None => false end)) in E. cbv beta iota in E. apply negb_true_iff in E. right. exists l. split; [reflexivity|]. intros e He.
        destruct (bytes_dec e (B ".")) as [->|N1]; [left; reflexivity|]. destruct (bytes_dec e (B "..")) as [->|N2]; [right; reflexivity|]. exfalso.
        apply (proj1 (P_Rules.existsb_false _ _)) with (x := e) in E; [|exact He]. apply beq_neq in N1, N2. cbv beta in E. rewrite N1, N2 in E. discriminate.
      * intros [E|(es & E & H)]; [discriminate|]. injection E as <-. f_equal. apply negb_true_iff. destruct (existsb _ l) eqn:Ex; [|reflexivity].
        apply existsb_exists in Ex. destruct Ex as (e & He & Ex). apply andb_true_iff in Ex. destruct Ex as [E1 E2]. apply negb_true_iff in E1, E2.
        apply beq_neq in E1, E2. destruct (H e He); contradiction.
    + split; [discriminate|]. intros [E|(es & E & _)]; discriminate.
Qed.

Lemma rm_dirs_spec (I : W -> Prop) out so full : solid so -> solid out ->
  (forall w d e r, I w -> empty_dir (entries w d) -> d = out ++ e -> (e = [] \/ tail e) -> full = e ++ B "/" ++ r -> I (fst (rmdir w d))) ->
  forall fuel e r w, I w -> (e = [] \/ tail e) -> full = e ++ B "/" ++ r -> length e < fuel ->
  I (fst (rm_dirs entries rmdir fuel out (so ++ e) (out ++ e) w)) /\ snd (rm_dirs entries rmdir fuel out (so ++ e) (out ++ e) w) <> OutOfFuel.
Proof.
  intros Hso Hout HI. induction fuel as [|fuel IH]; intros e r w Hw He Hf Hl; [lia|]. cbn [rm_dirs].
  destruct (beq (so ++ e) (B ".") || beq (so ++ e) (B "/")); [split; [exact Hw|discriminate]|].
  destruct (is_empty_dir entries w (out ++ e)) as [[|]|] eqn:Ee; [|split; [exact Hw|discriminate]|split; [exact Hw|discriminate]].
  apply is_empty_spec in Ee. pose proof (HI w _ e r Hw Ee eq_refl He Hf) as Hw'. destruct (rmdir w (out ++ e)) as [w1 ok]. cbn [fst] in Hw'.
  destruct ok; cbn [negb]; [|split; [exact Hw'|discriminate]]. destruct (beq (out ++ e) out) eqn:Eo; [split; [exact Hw'|discriminate]|].
  apply beq_neq in Eo. destruct He as [->|He]; [exfalso; apply Eo; apply app_nil_r|].
  destruct (tail_cut He) as (e' & sl & nm & -> & He' & Fs & Hs & Fn & Hn).
  assert (S' : forall x, solid x -> solid (x ++ e')).
  { intros x Hx. destruct He' as [->|(t & _ & He')]; [rewrite app_nil_r; exact Hx|apply solid_app; exact He']. }
  rewrite !(app_assoc _ e'), !dirname_cut by auto.
  destruct sl as [|c sl]; [contradiction|]. assert (c = "/"%char) as -> by (inversion Fs; auto).
  apply (IH e' (sl ++ nm ++ B "/" ++ r)); [exact Hw'|exact He'| |].
  - rewrite Hf, <- !app_assoc. reflexivity.
  - rewrite !app_length in Hl. cbn [length] in Hl. lia.
Qed.

(* unlink(2) does not remove what is spelled with a slash at its end *)
Definition unlink_files : Prop := forall w p, snd (unlink w (p ++ B "/")) = false.

(* C52, one file. The file is removed, and then directories on the way to it, if they are
   empty; they are in the output directory, the one itself included. *)
Theorem C52_rm : forall (I : W -> Prop) root so n w f, unlink_files -> solid so ->
  let place x := if starts_slash x then x else root ++ B "/" ++ x in
  f_short f = so ++ B "/" ++ n -> f_path f = place (f_short f) ->
  I w -> (forall w, I w -> I (fst (unlink w (f_path f)))) ->
  (forall w d, I w -> empty_dir (entries w d) -> inside (place so) d -> parent d (f_path f) ->
     (no_dotdot n -> below (leads_to (place so)) (leads_to d)) -> I (fst (rmdir w d))) ->
  I (fst (native_rm unlink entries rmdir w (place so) f)) /\ snd (native_rm unlink entries rmdir w (place so) f) <> OutOfFuel.
Proof.
  intros I root so n w f Hu Hso place Hsh Hp Hw HI1 HI2. unfold native_rm. pose proof (HI1 w Hw) as Hw1. pose proof (Hu w) as Hu1.
  assert (Hout : solid (place so)).
  { unfold place. destruct (starts_slash so); [exact Hso|]. rewrite app_assoc. apply solid_app. exact Hso. }
  assert (Hpl : f_path f = place so ++ "/"%char :: n).
  { rewrite Hp, Hsh. unfold place. destruct Hso as (q & c & -> & _). destruct q as [|x q]; cbn [app starts_slash].
    - destruct (c == "/"%char); [reflexivity|]. change (B "/") with ["/"%char]. rewrite <- !app_assoc. reflexivity.
    - destruct (x == "/"%char); change (B "/") with ["/"%char]; rewrite <- ?app_comm_cons, <- ?app_assoc; [reflexivity|]. cbn [app]. rewrite <- !app_assoc. reflexivity. }
  destruct (unlink w (f_path f)) as [w1 ok] eqn:Eu. cbn [fst] in Hw1. destruct ok; cbn [negb]; [|split; [exact Hw1|discriminate]].
  assert (Ht : tail ("/"%char :: n)).
  { exists n. split; [reflexivity|]. destruct (rev ("/"%char :: n)) as [|c t] eqn:Er; [apply (f_equal (@length ascii)) in Er; rewrite rev_length in Er; discriminate|].
    apply solid_rev. exists c, t. split; [exact Er|]. intros ->. apply (f_equal (@rev ascii)) in Er. rewrite rev_involutive in Er. cbn [rev] in Er.
    specialize (Hu1 (place so ++ rev t)). rewrite <- app_assoc in Hu1. change (B "/") with ["/"%char] in Hu1. rewrite <- Er, <- Hpl, Eu in Hu1. discriminate. }
  destruct (tail_cut Ht) as (e' & sl & nm & E & He' & Fs & Hs & Fn & Hn).
  assert (S' : forall x, solid x -> solid (x ++ e')).
  { intros x Hx. destruct He' as [->|(t & _ & He')]; [rewrite app_nil_r; exact Hx|apply solid_app; exact He']. }
  rewrite Hpl, Hsh. change (so ++ B "/" ++ n) with (so ++ "/"%char :: n). rewrite E, !(app_assoc _ e'), !dirname_cut by auto.
  assert (Hf : exists r, "/"%char :: n = e' ++ B "/" ++ r).
  { destruct sl as [|c sl]; [contradiction|]. assert (c = "/"%char) as -> by (inversion Fs; auto). exists (sl ++ nm). rewrite E. reflexivity. }
  destruct Hf as (r & Hf).
  apply (@rm_dirs_spec I (place so) so ("/"%char :: n) Hso Hout) with (r := r); [|exact Hw1|exact He'|exact Hf|].
  - intros w2 d e r2 H1 H2 -> H4 H5. apply HI2; [exact H1|exact H2| | |].
    + destruct H4 as [->|(t & -> & _)]; [left; apply app_nil_r|right; exists t; reflexivity].
    + split; [destruct Hout as (q & c & -> & _); destruct q; discriminate|]. exists "/"%char, r2. split; [|left; reflexivity].
      rewrite Hpl, H5, <- app_assoc. reflexivity.
    + intro Hd. destruct H4 as [->|(t & -> & _)]; [rewrite app_nil_r; exists []; rewrite app_nil_r; reflexivity|].
      unfold leads_to. rewrite components_app, follow_app. apply follow_down. intro X. apply Hd. cbn [app] in H5. injection H5 as ->.
      change (t ++ B "/" ++ r2) with (t ++ "/"%char :: r2). rewrite components_app. apply in_or_app. left. exact X.
  - rewrite !app_length. lia.
Qed.
End Rm.
Print Assumptions C52_rm.

(* ---- the list of what was built ---- *)
Lemma numbers_seq l k : (0 <= fst (strtol l))%Z -> (In k (seq 1 (Z.to_nat (fst (strtol l)))) <-> (1 <= Z.of_nat k <= fst (strtol l))%Z).
Proof. intro H. rewrite in_seq. lia. Qed.
Section Clean.
Variable W : Type.
Variable stat : W -> bytes -> option (Z * Z).
Variable command : W -> bytes -> bytes -> W * cmd_result.
Variable cp : W -> fctx -> fctx -> W * nat.
Variable good : W -> Prop.
Notation out := (out stat).
Notation rules := (build_rules stat command cp).

Definition lists (c : ctx) (answer : option bytes -> option bytes) (r : rule W) : Prop :=
  exists names, (forall w, good w -> r_outputs r c w = (w, Ok (map (out c w) names)))
    /\ forall n, In (Some n) names <-> exists d, product c answer (r_name r) n d.
Lemma lists_nil c answer r : (forall w, good w -> r_outputs r c w = (w, Ok [])) -> (forall n d, ~ product c answer (r_name r) n d) -> lists c answer r.
Proof. intros H1 H2. exists []. split; [exact H1|]. intro n. split; [intros []|intros (d & P); destruct (H2 n d P)]. Qed.

Ltac no_posts := intros n d P; inversion P; subst; try discriminate; try congruence;
  match goal with H : shown _ _ |- _ => apply enabled_shown in H; congruence | H : In _ _ |- _ => destruct H | _ => idtac end.
Lemma outputs_spec c answer r : site_ok c -> answers command good c answer -> In r rules -> lists c answer r.
Proof.
  intros Hok A Hr. pose proof A as (A1 & _ & A3). destruct Hok as (_ & Hn1 & Hn2 & Hl1 & Hl2). unfold build_rules in Hr.
  destruct Hr as [<-|[<-|[<-|[<-|[<-|[<-|[<-|[<-|[<-|[]]]]]]]]]].
  - destruct (s_posts (c_st c)) as [posts|] eqn:Ep; [|apply lists_nil; [intros w Hw; cbn [r_outputs]; unfold pure, index_outputs; rewrite Ep; reflexivity|no_posts]].
    destruct (posts_pagination_enabled c (B "posts_per_page")) eqn:Ee; [|apply lists_nil; [intros w Hw; cbn [r_outputs]; unfold pure, index_outputs; rewrite Ep, Ee; reflexivity|no_posts]].
    eexists [_]. split; [intros w Hw; cbn [r_outputs]; unfold pure, index_outputs; rewrite Ep, Ee; reflexivity|]. apply enabled_shown in Ee. intro n. split.
    + intros [E|[]]. eexists. apply P_index; [congruence|exact Ee|exact E].
    + intros (d & P). inversion P; subst; try discriminate. left. assumption.
  - destruct (s_posts (c_st c)) as [posts|] eqn:Ep; [|apply lists_nil; [intros w Hw; cbn [r_outputs]; unfold pure, atom_outputs; rewrite Ep; reflexivity|no_posts]].
    destruct (posts_pagination_enabled c (B "atom_posts_per_page")) eqn:Ee; [|apply lists_nil; [intros w Hw; cbn [r_outputs]; unfold pure, atom_outputs; rewrite Ep, Ee; reflexivity|no_posts]].
    eexists [_]. split; [intros w Hw; cbn [r_outputs]; unfold pure, atom_outputs; rewrite Ep, Ee; reflexivity|]. apply enabled_shown in Ee. intro n. split.
    + intros [E|[]]. eexists. apply P_atom; [congruence|exact Ee|exact E].
    + intros (d & P). inversion P; subst; try discriminate. left. assumption.
  - destruct (s_posts (c_st c)) as [posts|] eqn:Ep; [|apply lists_nil; [intros w Hw; cbn [r_outputs]; unfold pure, atom_tags_outputs; rewrite Ep; reflexivity|no_posts]].
    destruct (s_tags (c_st c)) as [tags|] eqn:Et; [|apply lists_nil; [intros w Hw; cbn [r_outputs]; unfold pure, atom_tags_outputs; rewrite Ep, Et; reflexivity|no_posts]].
    destruct (posts_pagination_enabled c (B "atom_posts_per_page")) eqn:Ee; [|apply lists_nil; [intros w Hw; cbn [r_outputs]; unfold pure, atom_tags_outputs; rewrite Ep, Et, Ee; reflexivity|no_posts]].
    exists (map (fun t => generate_filename (dir c) (look c (B "blog_prefix")) (look c (B "atom_prefix")) (Some t) (look c (B "atom_ext"))) tags).
    split; [intros w Hw; cbn [r_outputs]; unfold pure, atom_tags_outputs; rewrite Ep, Et, Ee, map_map; reflexivity|]. apply enabled_shown in Ee. intro n. rewrite in_map_iff. split.
    + intros (t & E & Ht). eexists. eapply P_atom_tag; [congruence|exact Et|exact Ht|exact Ee|exact E].
    + intros (d & P). inversion P as [ | |tags' t n' Hp Ht Hi Hs Hn E1 E2 E3| | | | | | ]; try discriminate. rewrite Et in Ht. injection Ht as <-. exists t. auto.
  - destruct (s_posts (c_st c)) as [posts|] eqn:Ep; [|apply lists_nil; [intros w Hw; cbn [r_outputs]; unfold pagination_outputs; rewrite Ep; reflexivity|no_posts]].
    destruct (posts_pagination_enabled c (B "posts_per_page")) eqn:Ee; [|apply lists_nil; [intros w Hw; cbn [r_outputs]; unfold pagination_outputs; rewrite Ep, Ee; reflexivity|no_posts]].
    destruct (answer None) as [l|] eqn:Ea.
    2: { apply lists_nil; [intros w Hw; cbn [r_outputs]; unfold pagination_outputs; rewrite Ep, Ee, A1 by exact Hw; reflexivity|].
         intros n d P. inversion P as [ | | |k n' Hp Hs (s & Hk & _) Hn E1 E2 E3| | | | | ]; try discriminate. congruence. }
    pose proof (A3 _ _ Ea) as Hz.
    exists (map (fun k => generate_filename (dir c) (look c (B "blog_prefix")) (look c (B "pagination_prefix")) (Some (digits k)) (look c (B "html_ext"))) (seq 1 (Z.to_nat (fst (strtol l))))).
    split.
    { intros w Hw; cbn [r_outputs]; unfold pagination_outputs; rewrite Ep, Ee, A1 by exact Hw; cbn [rbind]. rewrite ?Ea. unfold page_numbers. cbn [rbind].
      rewrite (proj2 (Z.ltb_ge _ _) Hz). cbn [rbind]. rewrite map_map. reflexivity. }
    apply enabled_shown in Ee. intro n. rewrite in_map_iff. split.
    + intros (k & E & Hk). eexists. eapply P_pagination; [congruence|exact Ee| |exact E]. exists l. split; [exact Ea|]. apply numbers_seq in Hk; assumption.
    + intros (d & P). inversion P as [ | | |k n' Hp Hs (s & Hk & Hr) Hn E1 E2 E3| | | | | ]; try discriminate. rewrite Ea in Hk. injection Hk as <-.
      exists k. split; [exact Hn|apply numbers_seq; assumption].
  - destruct (s_posts (c_st c)) as [posts|] eqn:Ep; [|apply lists_nil; [intros w Hw; cbn [r_outputs]; unfold pagination_tags_outputs; rewrite Ep; reflexivity|no_posts]].
    destruct (s_tags (c_st c)) as [tags|] eqn:Et; [|apply lists_nil; [intros w Hw; cbn [r_outputs]; unfold pagination_tags_outputs; rewrite Ep, Et; reflexivity|no_posts]].
    destruct (posts_pagination_enabled c (B "posts_per_page")) eqn:Ee; [|apply lists_nil; [intros w Hw; cbn [r_outputs]; unfold pagination_tags_outputs; rewrite Ep, Et, Ee; reflexivity|no_posts]].
    exists (tag_names c answer tags). split; [intros w Hw; cbn [r_outputs]; unfold pagination_tags_outputs; rewrite Ep, Et, Ee; apply (tag_pages_out stat A Et Hw); apply incl_refl|].
    apply enabled_shown in Ee. intro n. unfold tag_names. rewrite in_flat_map. split.
    + intros (t & Ht & I). apply in_map_iff in I. destruct I as (k & En & Hk). unfold page_list in Hk. destruct (answer (Some t)) as [l|] eqn:Ea; [|destruct Hk].
      eexists. eapply P_pagination_tag with (t := t) (k := k); [congruence|exact Et|exact Ht|exact Ee| |exact En]. exists l. split; [exact Ea|].
      apply numbers_seq in Hk; [exact Hk|eapply A3; exact Ea].
    + intros (d & P). inversion P as [ | | | |tags' t k n' Hp Ht Hi Hs (s & Hk & Hr) Hn E1 E2 E3| | | | ]; try discriminate. rewrite Et in Ht. injection Ht as <-.
      exists t. split; [exact Hi|]. apply in_map_iff. exists k. split; [exact Hn|]. unfold page_list. rewrite Hk. apply numbers_seq; [eapply A3; exact Hk|exact Hr].
  - destruct (s_posts (c_st c)) as [posts|] eqn:Ep; [|apply lists_nil; [intros w Hw; cbn [r_outputs]; unfold pure, posts_outputs; rewrite Ep; reflexivity|no_posts]].
    exists (map (fun p => generate_filename (dir c) (look c (B "blog_prefix")) (look c (B "post_prefix")) (Some p) (look c (B "html_ext"))) posts).
    split; [intros w Hw; cbn [r_outputs]; unfold pure, posts_outputs; rewrite Ep, map_map; reflexivity|]. specialize (Hl1 _ eq_refl). intro n. rewrite in_map_iff. split.
    + intros (p & E & Hp). apply In_nth_error in Hp. destruct Hp as (i & Hi). assert (L : i < length (c_posts c)) by (rewrite <- Hl1; apply nth_error_Some; congruence).
      apply nth_error_Some in L. destruct (nth_error (c_posts c) i) as [[f|]|] eqn:Ef; [|exfalso; apply Hn1; eapply nth_error_In; exact Ef|congruence].
      eexists. eapply P_post; eassumption.
    + intros (d & P). inversion P as [ | | | | |ps i p f n' Hp H1 H2 Hx E1 E2 E3| | | ]; try discriminate. rewrite Ep in Hp. injection Hp as <-.
      exists p. split; [exact Hx|eapply nth_error_In; exact H1].
  - destruct (s_posts (c_st c)) as [posts|] eqn:Ep; [|apply lists_nil; [intros w Hw; cbn [r_outputs]; unfold pure, tags_outputs; rewrite Ep; reflexivity|no_posts]].
    destruct (s_tags (c_st c)) as [tags|] eqn:Et; [|apply lists_nil; [intros w Hw; cbn [r_outputs]; unfold pure, tags_outputs; rewrite Ep, Et; reflexivity|no_posts]].
    destruct (posts_pagination_enabled c (B "posts_per_page")) eqn:Ee; [|apply lists_nil; [intros w Hw; cbn [r_outputs]; unfold pure, tags_outputs; rewrite Ep, Et, Ee; reflexivity|no_posts]].
    exists (map (fun t => generate_filename (dir c) (look c (B "blog_prefix")) (look c (B "tag_prefix")) (Some t) (look c (B "html_ext"))) tags).
    split; [intros w Hw; cbn [r_outputs]; unfold pure, tags_outputs; rewrite Ep, Et, Ee, map_map; reflexivity|]. apply enabled_shown in Ee. intro n. rewrite in_map_iff. split.
    + intros (t & E & Ht). eexists. eapply P_tag; [congruence|exact Et|exact Ht|exact Ee|exact E].
    + intros (d & P). inversion P as [ | | | | | |tags' t n' Hp Ht Hi Hs Hn E1 E2 E3| | ]; try discriminate. rewrite Et in Ht. injection Ht as <-. exists t. auto.
  - destruct (s_pages (c_st c)) as [pages|] eqn:Ep; [|apply lists_nil; [intros w Hw; cbn [r_outputs]; unfold pure, pages_outputs; rewrite Ep; reflexivity|no_posts]].
    exists (map (fun p => generate_filename (dir c) None None (Some p) (look c (B "html_ext"))) pages).
    split; [intros w Hw; cbn [r_outputs]; unfold pure, pages_outputs; rewrite Ep, map_map; reflexivity|]. specialize (Hl2 _ eq_refl). intro n. rewrite in_map_iff. split.
    + intros (p & E & Hp). apply In_nth_error in Hp. destruct Hp as (i & Hi). assert (L : i < length (c_pages c)) by (rewrite <- Hl2; apply nth_error_Some; congruence).
      apply nth_error_Some in L. destruct (nth_error (c_pages c) i) as [[f|]|] eqn:Ef; [|exfalso; apply Hn2; eapply nth_error_In; exact Ef|congruence].
      eexists. eapply P_page; eassumption.
    + intros (d & P). inversion P as [ | | | | | | |ps i p f n' Hp H1 H2 Hx E1 E2 E3| ]; try discriminate. rewrite Ep in Hp. injection Hp as <-.
      exists p. split; [exact Hx|eapply nth_error_In; exact H1].
  - destruct (s_copy (c_st c)) as [copy|] eqn:Ep; [|apply lists_nil; [intros w Hw; cbn [r_outputs]; unfold pure, copy_outputs; rewrite Ep; reflexivity|no_posts]].
    exists (map (fun f => Some (c_short_output c ++ B "/" ++ f_short f)) (c_copy c)).
    split; [intros w Hw; cbn [r_outputs]; unfold pure, copy_outputs; rewrite Ep, map_map; reflexivity|]. intro n. rewrite in_map_iff. split.
    + intros (f & E & Hf). injection E as <-. eexists. apply (@P_copy c answer f); [congruence|exact Hf].
    + intros (d & P). inversion P as [ | | | | | | | |f Hp Hf E1 E2 E3]; try discriminate. exists f. auto.
Qed.
Lemma built_spec c answer : site_ok c -> answers command good c answer ->
  exists names, (forall w, good w -> built_files c rules w = (w, Ok (map (out c w) names)))
    /\ forall n, In (Some n) names <-> exists rule d, product c answer rule n d.
Proof.
  intros Hok A.
  assert (G : forall rs, incl rs rules -> exists names, (forall w, good w -> built_files c rs w = (w, Ok (map (out c w) names)))
    /\ forall n, In (Some n) names <-> exists r d, In r rs /\ product c answer (r_name r) n d).
  { induction rs as [|r rs IH]; intro Hi; [exists []; split; [reflexivity|]; intro n; split; [intros []|intros (r & d & [] & _)]|].
    destruct (outputs_spec Hok A (Hi r (or_introl eq_refl))) as (l1 & E1 & F1). destruct (IH (fun x Hx => Hi x (or_intror Hx))) as (l2 & E2 & F2).
    exists (l1 ++ l2). split; [intros w Hw; cbn [built_files]; rewrite E1, E2 by exact Hw; cbn [rbind]; rewrite map_app; reflexivity|]. intro n. rewrite in_app_iff, F1, F2. split.
    - intros [(d & P)|(r' & d & Hr & P)]; [exists r, d; split; [left; reflexivity|exact P]|exists r', d; split; [right; exact Hr|exact P]].
    - intros (r' & d & [<-|Hr] & P); [left; exists d; exact P|right; exists r', d; auto]. }
  destruct (G rules (incl_refl _)) as (names & E & F). exists names. split; [exact E|]. intro n. rewrite F. split.
  - intros (r & d & _ & P). exists (r_name r), d. exact P.
  - intros (rule & d & P).
    assert (I : In rule (map (@r_name W) rules)) by (unfold build_rules; destruct P; cbn [map r_name In]; tauto).
    apply in_map_iff in I. destruct I as (r & <- & Hr). exists r, d. auto.
Qed.
End Clean.

Lemma generated_slash dir g p f e n : generate_filename (Some dir) g p f e = Some n -> exists r, n = dir ++ B "/" ++ r.
Proof.
  intro E. destruct (C46_name (Some dir) g p f e) as [Hn Hnone]. destruct (Hn _ E) as (last & L & ->). cbn [text].
  destruct (filter nonempty [text g; text p] ++ last) as [|x l] eqn:Ep.
  - apply app_eq_nil in Ep. destruct Ep as [Ep ->]. destruct (text g) eqn:E1; [|discriminate Ep]. destruct (text p) eqn:E2; [|discriminate Ep].
    assert (S : slash (text e)).
    { inversion L as [| |Hr Hs Hx|  |Hnil Hs]; [exact Hs|]. destruct Hs as [Hs|[Hs|Hs]]; [contradiction| |exact Hs]. exfalso.
      rewrite (proj2 Hnone) in E by auto. discriminate. }
    destruct S as (r & ->). exists r. reflexivity.
  - exists (x ++ path l ++ text e). unfold path. cbn [flat_map]. rewrite <- !app_assoc. reflexivity.
Qed.
Lemma product_slash c answer rule n d : product c answer rule n d -> exists r, n = c_short_output c ++ B "/" ++ r.
Proof.
  intro P. destruct P; try (eapply generated_slash; eassumption). eexists. reflexivity.
Qed.
Lemma absolute_place c n : absolute c n = if starts_slash n then n else c_root c ++ B "/" ++ n.
Proof. unfold absolute, starts_slash. destruct n as [|x n]; [rewrite app_nil_r; reflexivity|]. destruct (x == "/"%char); reflexivity. Qed.

Section CleanRm.
Variable W : Type.
Variable stat : W -> bytes -> option (Z * Z).
Variable command : W -> bytes -> bytes -> W * cmd_result.
Variable cp : W -> fctx -> fctx -> W * nat.
Variable unlink : W -> bytes -> W * bool.
Variable entries : W -> bytes -> listing.
Variable rmdir : W -> bytes -> W * bool.

Definition rm (w : W) (o : bytes) (f : fctx) : W * nat :=
  let (w, r) := native_rm unlink entries rmdir w o f in (w, match r with Ok n => n | _ => 1 end).
Notation clean := (clean_exec stat command cp rm).

(* the context is that of a site whose output directory is not spelled with a slash at
   its end *)
Definition plain_output (c : ctx) : Prop :=
  solid (c_short_output c) /\ e_output_dir (c_exec c) = absolute c (c_short_output c).

(* C52: blogc-make clean unlinks only files that the rules build and that were there, and
   removes only empty directories in the output directory, on the way to such a file.
   Whatever that keeps is kept. If no output name has a "..", the directories are really
   below the output directory. *)
Theorem C52_clean_partial : forall c answer (I : W -> Prop) w, site_ok c -> answers command (eq w) c answer -> plain_output c -> unlink_files unlink ->
  I w ->
  (forall w' rule n d, I w' -> product c answer rule n d -> stat w (absolute c n) <> None -> I (fst (unlink w' (absolute c n)))) ->
  (forall w' dir rule n d, I w' -> product c answer rule n d -> empty_dir (entries w' dir) ->
     inside (e_output_dir (c_exec c)) dir -> parent dir (absolute c n) ->
     (forall r, n = c_short_output c ++ B "/" ++ r -> no_dotdot r -> below (leads_to (e_output_dir (c_exec c))) (leads_to dir)) -> I (fst (rmdir w' dir))) ->
  I (fst (clean c w)).
Proof.
  intros c answer I w Hok A (Hso & Hout) Hu Hw H1 H2. unfold clean_exec. destruct (built_spec stat cp Hok A) as (names & E & F). rewrite (E w eq_refl).
  assert (G : forall l, incl l names -> forall w', I w' -> I (fst (run_all (clean_one rm c) (map (out stat c w) l) w'))).
  { induction l as [|n l IH]; intros Hi w' Hw'; [exact Hw'|]. cbn [map run_all].
    assert (K : I (fst (clean_one rm c (out stat c w n) w'))).
    { destruct n as [n|]; [|exact Hw']. destruct (out_some stat c w n) as (f & Ef). rewrite Ef. cbn [clean_one].
      destruct (f_readable f) eqn:Er; [|exact Hw']. destruct (out_path Ef) as [Ep Es]. rewrite Er in Es.
      destruct (proj1 (F n) (Hi _ (or_introl eq_refl))) as (rule & d & P). destruct (product_slash P) as (r & En). unfold rm.
      assert (K : I (fst (native_rm unlink entries rmdir w' (e_output_dir (c_exec c)) f))).
      { rewrite Hout, absolute_place. apply C52_rm with (n := r).
        - exact Hu.
        - exact Hso.
        - rewrite (out_short Ef). exact En.
        - rewrite (out_short Ef), Ep. apply absolute_place.
        - exact Hw'.
        - intros w2 H. rewrite Ep. eapply H1; [exact H|exact P|]. rewrite Es. discriminate.
        - intros w2 dir G1 G2 G3 G4 G5. rewrite <- absolute_place, <- Hout in G3, G5. rewrite Ep in G4. eapply H2; try eassumption.
          intros r' En'. rewrite En in En'. apply app_inv_head in En'. injection En' as <-. exact G5. }
      destruct (native_rm unlink entries rmdir w' (e_output_dir (c_exec c)) f) as [w2 [x| |]]; exact K. }
    destruct (clean_one rm c (out stat c w n) w') as [w2 x]. cbn [fst] in K. destruct x as [[|x]| |]; try exact K. apply IH; [|exact K]. intros x Hx. apply Hi. right. exact Hx. }
  apply G; [apply incl_refl|exact Hw].
Qed.

(* C69: if unlink(2) and rmdir(2) remove what they are given and make nothing, then after
   a clean that succeeds no file that the rules build is there. *)
Theorem C69_cleaned : forall c answer w w', site_ok c -> answers command (eq w) c answer ->
  (forall w p w', unlink w p = (w', true) -> stat w' p = None) ->
  (forall w p q, stat w q = None -> stat (fst (unlink w p)) q = None) ->
  (forall w p q, stat w q = None -> stat (fst (rmdir w p)) q = None) ->
  clean c w = (w', Ok 0) ->
  forall rule n d, product c answer rule n d -> stat w' (absolute c n) = None.
Proof.
  intros c answer w w' Hok A U1 U2 U3 H rule n d P. unfold clean_exec in H. destruct (built_spec stat cp Hok A) as (names & E & F). rewrite (E w eq_refl) in H.
  assert (D : forall q fuel out so dir w, stat w q = None -> stat (fst (rm_dirs entries rmdir fuel out so dir w)) q = None).
  { intro q. induction fuel as [|fuel IH]; intros out so dir w1 Hq; [exact Hq|]. cbn [rm_dirs]. destruct (_ || _); [exact Hq|].
    destruct (is_empty_dir entries w1 dir) as [[|]|]; [|exact Hq|exact Hq]. pose proof (U3 w1 dir q Hq) as K. destruct (rmdir w1 dir) as [w2 ok].
    cbn [fst] in K. destruct ok; cbn [negb]; [|exact K]. destruct (beq dir out); [exact K|]. apply IH. exact K. }
  assert (R : forall q w o f, stat w q = None -> stat (fst (rm w o f)) q = None).
  { intros q w1 o f Hq. unfold rm, native_rm. pose proof (U2 w1 (f_path f) q Hq) as K. destruct (unlink w1 (f_path f)) as [w2 ok]. cbn [fst] in K.
    destruct ok; cbn [negb]; [|exact K]. pose proof (D q (S (length (f_short f))) o (dirname (f_short f)) (dirname (f_path f)) w2 K) as K2.
    destruct (rm_dirs _ _ _ _ _ _ _) as [w3 x]. exact K2. }
  assert (G : forall l w1 w', run_all (clean_one rm c) (map (out stat c w) l) w1 = (w', Ok 0) ->
    (forall q, stat w1 q = None -> stat w' q = None) /\ forall n, In (Some n) l -> (stat w (absolute c n) = None -> stat w1 (absolute c n) = None) -> stat w' (absolute c n) = None).
  { clear H w' P. induction l as [|x l IH]; intros w1 w' H; cbn [map run_all] in H.
    - injection H as <-. split; [auto|intros ? []].
    - destruct (clean_one rm c (out stat c w x) w1) as [w2 y] eqn:Ec. destruct y as [[|y]| |]; try discriminate. destruct (IH _ _ H) as [K1 K2].
      assert (M : forall q, stat w1 q = None -> stat w2 q = None).
      { intros q Hq. unfold clean_one in Ec. destruct (out stat c w x) as [f|]; [|injection Ec as <-; exact Hq]. destruct (f_readable f); [|injection Ec as <-; exact Hq].
        pose proof (R q w1 (e_output_dir (c_exec c)) f Hq) as K. destruct (rm w1 _ f). injection Ec as <- _. exact K. }
      split; [intros q Hq; apply K1, M; exact Hq|]. intros m [->|Hm] Hs; [|apply K2; [exact Hm|intro X; apply M, Hs; exact X]]. apply K1.
      destruct (out_some stat c w m) as (f & Ef). rewrite Ef in Ec. destruct (out_path Ef) as [Ep Es]. cbn [clean_one] in Ec.
      destruct (f_readable f); [|injection Ec as <-; apply Hs; exact Es]. unfold rm, native_rm in Ec. destruct (unlink w1 (f_path f)) as [w3 ok] eqn:Eu.
      destruct ok; cbn [negb] in Ec; [|discriminate]. apply U1 in Eu. rewrite Ep in Eu.
      pose proof (D _ (S (length (f_short f))) (e_output_dir (c_exec c)) (dirname (f_short f)) (dirname (f_path f)) w3 Eu) as K.
      destruct (rm_dirs _ _ _ _ _ _ _) as [w4 y]. injection Ec as <- _. exact K. }
  destruct (G _ _ _ H) as [_ K]. apply K; [apply F; exists rule, d; exact P|auto].
Qed.
End CleanRm.
Print Assumptions C52_clean_partial.
Print Assumptions C69_cleaned.

(* ---- a small file system ---- *)
(* files (false) and directories (true), by the place they are at *)
Definition tree : Type := list (list bytes * bool).
Definition place_dec : forall a b : list bytes, {a = b} + {a <> b} := list_eq_dec bytes_dec.
Definition there (w : tree) (p : bytes) (dir : bool) : bool :=
  existsb (fun x => if place_dec (fst x) (leads_to p) then Bool.eqb (snd x) dir else false) w.
Definition without (w : tree) (p : bytes) : tree := filter (fun x => if place_dec (fst x) (leads_to p) then false else true) w.
Definition children (w : tree) (p : bytes) : list bytes :=
  flat_map (fun x => match fst x with [] => [] | _ => if place_dec (removelast (fst x)) (leads_to p) then [last (fst x) []] else [] end) w.
Definition t_stat (w : tree) (p : bytes) : option (Z * Z) := if there w p false || there w p true then Some (0, 0)%Z else None.
Definition t_unlink (w : tree) (p : bytes) : tree * bool :=
  if Utils.ends_with p (B "/") then (w, false) else if there w p false then (without w p, true) else (w, false).
Definition t_entries (w : tree) (d : bytes) : listing :=
  if there w d true then Entries (B "." :: B ".." :: children w d) true else if there w d false then Unreadable else Missing.
Definition t_rmdir (w : tree) (d : bytes) : tree * bool :=
  if there w d true then match children w d with [] => (without w d, true) | _ => (w, false) end else (w, false).
Definition t_command (w : tree) (_ _ : bytes) : tree * cmd_result := (w, CmdDone 0 None None).
Definition t_cp (w : tree) (_ _ : fctx) : tree * nat := (w, 0).
Definition t_clean := clean_exec t_stat t_command t_cp (rm t_unlink t_entries t_rmdir).

(* a site of files to copy *)
Definition copies (short : bytes) (l : list bytes) : ctx :=
  let st := Settings trie_new trie_new None None (Some l) None in
  let file n := Fctx (B "/r/" ++ n) n None (0, 0)%Z true in
  Ctx (Ectx (B "blogc") (B "blogc-runserver") st (if starts_slash short then short else B "/r/" ++ short) false) (B "/r") short
    (file (B "t")) (file (B "f")) false (file (B "blogcfile")) None [] [] (map file l).
Lemma copies_ok short l : site_ok (copies short l) /\ answers t_command (fun _ => True) (copies short l) (fun _ => None).
Proof.
  split.
  - split; [|split; [intros []|split; [intros []|split; intros x E; discriminate]]]. apply Forall_forall. intros f Hf. unfold inputs in Hf.
    cbn [copies c_settings c_main c_atom c_entry c_posts c_pages c_copy somes flat_map app] in Hf. destruct Hf as [<-|[<-|[<-|Hf]]]; [reflexivity..|].
    apply in_map_iff in Hf. destruct Hf as (n & <- & _). reflexivity.
  - split; [reflexivity|]. split; [intros tags t w _ E; discriminate|intros t s E; discriminate].
Qed.
Lemma ends_slash p : Utils.ends_with (p ++ B "/") (B "/") = true.
Proof.
  unfold Utils.ends_with. rewrite app_length. change (length (B "/")) with 1. replace (Nat.ltb (length p + 1) 1) with false by (symmetry; apply Nat.ltb_ge; lia).
  rewrite Nat.add_sub, skipn_app, skipn_all, Nat.sub_diag. reflexivity.
Qed.
Lemma t_unlink_files : unlink_files t_unlink.
Proof. intros w p. unfold t_unlink. rewrite ends_slash. reflexivity. Qed.

Definition ex_tree : tree :=
  map (fun x => (leads_to (fst x), snd x))
    [(B "/r", true); (B "/r/a", true); (B "/r/a/b", true); (B "/r/a/b/img", true); (B "/r/a/b/img/logo.png", false); (B "/r/a/b/c.css", false);
     (B "/r/img", true); (B "/r/img/logo.png", false); (B "/r/c.css", false)].
Example C52_example : plain_output (copies (B "a/b") [B "img/logo.png"; B "c.css"]) /\
  exists w, t_clean (copies (B "a/b") [B "img/logo.png"; B "c.css"]) ex_tree = (w, Ok 0)
    /\ w = map (fun x => (leads_to (fst x), snd x)) [(B "/r", true); (B "/r/a", true); (B "/r/img", true); (B "/r/img/logo.png", false); (B "/r/c.css", false)].
Proof.
  split; [split; [exists (B "a/"), "b"%char; split; [reflexivity|discriminate]|reflexivity]|]. eexists. split; [vm_compute; reflexivity|]. vm_compute. reflexivity.
Qed.

(* Finding: with OUTPUT_DIR=a/b/ the loop does not notice that it has reached the output
   directory, and goes on with what it is in. *)
Theorem C52_refuted : exists c w w' d, site_ok c /\ answers t_command (fun _ => True) c (fun _ => None) /\ e_output_dir (c_exec c) = absolute c (c_short_output c) /\
  t_clean c w = (w', Ok 0) /\ there w d true = true /\ there w' d true = false /\ ~ below (leads_to (e_output_dir (c_exec c))) (leads_to d).
Proof.
  exists (copies (B "a/b/") [B "img/logo.png"; B "c.css"]), ex_tree. eexists. exists (B "/r/a").
  split; [apply copies_ok|]. split; [apply copies_ok|]. split; [reflexivity|]. split; [vm_compute; reflexivity|]. split; [reflexivity|]. split; [reflexivity|].
  intros (r & E). vm_compute in E. discriminate.
Qed.
(* Finding: with OUTPUT_DIR=. the sources are where their copies are, and clean removes
   them. *)
Theorem C52_source_refuted : exists c w w' f, site_ok c /\ answers t_command (fun _ => True) c (fun _ => None) /\ plain_output c /\
  t_clean c w = (w', Ok 0) /\ In f (inputs c) /\ there w (f_path f) false = true /\ there w' (f_path f) false = false.
Proof.
  exists (copies (B ".") [B "img/logo.png"; B "c.css"]), ex_tree. eexists. exists (Fctx (B "/r/c.css") (B "c.css") None (0, 0)%Z true).
  split; [apply copies_ok|]. split; [apply copies_ok|]. split; [split; [exists [], "."%char; split; [reflexivity|discriminate]|reflexivity]|].
  split; [vm_compute; reflexivity|]. split; [do 4 right; left; reflexivity|]. split; reflexivity.
Qed.
(* Finding: a file named twice cannot be removed twice; clean fails and leaves the rest. *)
Theorem C69_refuted : exists c w w' rule n d, site_ok c /\ answers t_command (fun _ => True) c (fun _ => None) /\ plain_output c /\
  t_clean c w = (w', Ok 1) /\ product c (fun _ => None) rule n d /\ t_stat w' (absolute c n) <> None.
Proof.
  exists (copies (B "a/b") [B "img/logo.png"; B "img/logo.png"; B "c.css"]), ex_tree. eexists. exists (B "copy"), (B "a/b/c.css"). eexists.
  split; [apply copies_ok|]. split; [apply copies_ok|]. split; [split; [exists (B "a/"), "b"%char; split; [reflexivity|discriminate]|reflexivity]|].
  split; [vm_compute; reflexivity|]. split; [apply (@P_copy (copies (B "a/b") [B "img/logo.png"; B "img/logo.png"; B "c.css"]) _ (Fctx (B "/r/c.css") (B "c.css") None (0, 0)%Z true)); [discriminate|]|].
  - do 2 right. left. reflexivity.
  - vm_compute. discriminate.
Qed.
Print Assumptions C52_refuted.
Print Assumptions C52_source_refuted.
Print Assumptions C69_refuted.

Lemma there_without w p q k : there w q k = false -> there (without w p) q k = false.
Proof.
  unfold there, without. intro H. rewrite P_Rules.existsb_false in *. intros x Hx. apply filter_In in Hx. apply H. apply Hx.
Qed.
Lemma without_gone w p k : there (without w p) p k = false.
Proof.
  unfold there, without. rewrite P_Rules.existsb_false. intros x Hx. apply filter_In in Hx. destruct (place_dec (fst x) (leads_to p)); [destruct Hx; discriminate|reflexivity].
Qed.
Lemma t_stat_none w p : t_stat w p = None <-> there w p false = false /\ there w p true = false.
Proof. unfold t_stat. destruct (there w p false), (there w p true); split; intuition discriminate. Qed.
Example C69_example : (forall w p w', t_unlink w p = (w', true) -> t_stat w' p = None)
  /\ (forall w p q, t_stat w q = None -> t_stat (fst (t_unlink w p)) q = None)
  /\ (forall w p q, t_stat w q = None -> t_stat (fst (t_rmdir w p)) q = None)
  /\ exists w, t_clean (copies (B "a/b") [B "img/logo.png"; B "c.css"]) ex_tree = (w, Ok 0).
Proof.
  split; [|split; [|split]].
  - intros w p w' H. unfold t_unlink in H. destruct (Utils.ends_with p (B "/")); [discriminate|]. destruct (there w p false); [|discriminate].
    injection H as <-. apply t_stat_none. split; apply without_gone.
  - intros w p q H. unfold t_unlink. destruct (Utils.ends_with p (B "/")); [exact H|]. destruct (there w p false); [|exact H].
    apply t_stat_none in H. apply t_stat_none. destruct H. split; apply there_without; assumption.
  - intros w p q H. unfold t_rmdir. destruct (there w p true); [|exact H]. destruct (children w p); [|exact H].
    apply t_stat_none in H. apply t_stat_none. destruct H. split; apply there_without; assumption.
  - eexists. vm_compute. reflexivity.
Qed.
