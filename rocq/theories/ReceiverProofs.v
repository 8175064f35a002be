(* Proofs about Receiver.v. *)
From Verif Require Import Base Utils UtilsProofs Trie TrieProofs ShSpec Effects Receiver ReceiverSpec.
#[local] Arguments B : simpl never.

(* ---------- the command ---------- *)
Lemma cut_at (c : ascii) (s : bytes) : (~ In c s) \/ exists a b, s = a ++ c :: b /\ ~ In c a.
Proof.
  induction s as [|x s IH]; [left; intros []|]. destruct (ascii_dec x c) as [->|N].
  - right. exists [], s. split; [reflexivity|intros []].
  - destruct IH as [H|(a & b & -> & H)].
    + left. intros [E|E]; [congruence|contradiction].
    + right. exists (x :: a), b. split; [reflexivity|]. intros [E|E]; [congruence|contradiction].
Qed.

Section Command.
Variable cmd : bytes.
Notation loop := (command_loop cmd).

Lemma loop_repo s r cur tok rv : ~ In SQ s ->
  loop (s ++ r) cur (Repo tok) rv = loop r (cur + length s) (Repo (tok ++ s)) rv.
Proof.
  revert cur tok. induction s as [|c s IH]; intros cur tok Hs.
  - cbn [app length]. rewrite Nat.add_0_r, app_nil_r. reflexivity.
  - cbn [app command_loop length]. assert (E : (c == SQ) = false) by (apply eqb_neq; intros ->; apply Hs; left; reflexivity). rewrite E.
    rewrite IH by (intro; apply Hs; right; assumption). rewrite <- app_assoc. f_equal. lia.
Qed.
Definition gain (rv s : bytes) : bytes := rv ++ (if Nat.eqb (length rv) 0 then without_slash s else s).
Lemma loop_quoted s r cur rv : ~ In SQ s ->
  loop (SQ :: s ++ SQ :: r) cur StartRepo rv = loop r (cur + length s + 2) StartRepo (gain rv s).
Proof.
  intro Hs. cbn [command_loop]. rewrite eqb_refl. destruct s as [|c s].
  - cbn [app command_loop length]. rewrite eqb_refl. unfold gain. cbn [without_slash]. destruct (Nat.eqb _ 0); rewrite app_nil_r; f_equal; lia.
  - cbn [app command_loop]. assert (E : (c == SQ) = false) by (apply eqb_neq; intros ->; apply Hs; left; reflexivity). rewrite E.
    rewrite loop_repo by (intro; apply Hs; right; assumption). cbn [command_loop]. rewrite eqb_refl. cbn [length].
    f_equal; [lia|]. unfold gain. cbn [without_slash]. destruct (Nat.eqb (length rv) 0); cbn [andb]; [|reflexivity].
    destruct (c == "/"%char); reflexivity.
Qed.
Lemma loop_open s cur rv : ~ In SQ s -> loop (SQ :: s) cur StartRepo rv = Some rv.
Proof.
  intro Hs. cbn [command_loop]. rewrite eqb_refl. destruct s as [|c s]; [reflexivity|].
  cbn [command_loop]. assert (E : (c == SQ) = false) by (apply eqb_neq; intros ->; apply Hs; left; reflexivity). rewrite E.
  rewrite <- (app_nil_r s). rewrite loop_repo by (intro; apply Hs; right; assumption). reflexivity.
Qed.
Lemma loop_escaped c r cur rv : c = "!"%char \/ c = SQ ->
  loop (BSL :: c :: r) cur StartRepo rv = loop r (cur + 2) StartRepo (rv ++ [c]).
Proof.
  intro Hc. cbn [command_loop]. change (BSL == SQ) with false. change (BSL == BSL) with true. cbn iota.
  replace ((c == "!"%char) || (c == SQ)) with true by (destruct Hc as [-> | ->]; reflexivity). f_equal. lia.
Qed.

Fixpoint collect (rv : bytes) (ps : list piece) : bytes :=
  match ps with
  | [] => rv
  | Quoted s :: r => collect (gain rv s) r
  | Escaped c :: r => collect (rv ++ [c]) r
  end.
(* what may come after the last complete piece *)
Definition unfinished (t : bytes) : Prop := t = [] \/ t = [BSL] \/ exists s, t = SQ :: s /\ ~ In SQ s.
Lemma loop_pieces ps r : Forall piece_ok ps -> forall cur rv, exists cur',
  loop (word_src ps ++ r) cur StartRepo rv = loop r cur' StartRepo (collect rv ps).
Proof.
  induction 1 as [|p ps Hp Hps IH]; intros cur rv; [exists cur; reflexivity|].
  unfold word_src. cbn [flat_map]. fold (word_src ps). destruct p as [s|c]; cbn [piece_src piece_ok collect] in *.
  - cbn [app]. rewrite <- !app_assoc. cbn [app]. rewrite loop_quoted by exact Hp. apply IH.
  - cbn [app]. rewrite loop_escaped by exact Hp. apply IH.
Qed.
Lemma loop_tail t cur rv : unfinished t -> loop t cur StartRepo rv = Some rv.
Proof.
  intros [->|[->|(s & -> & Hs)]]; [reflexivity|reflexivity|]. apply loop_open. exact Hs.
Qed.
Lemma loop_inv : forall n r cur rv v, length r <= n -> loop r cur StartRepo rv = Some v ->
  exists ps t, r = word_src ps ++ t /\ Forall piece_ok ps /\ unfinished t /\ v = collect rv ps.
Proof.
  induction n as [|n IH]; intros r cur rv v Hn E.
  - destruct r; [|cbn [length] in Hn; lia]. injection E as <-. exists [], []. repeat split; [constructor|left; reflexivity].
  - destruct r as [|c r].
    { injection E as <-. exists [], []. repeat split; [constructor|left; reflexivity]. }
    cbn [length] in Hn. destruct (c == SQ) eqn:Ec.
    + apply eqb_true in Ec. subst c. destruct (cut_at SQ r) as [H|(a & b & -> & H)].
      * rewrite loop_open in E by exact H. injection E as <-. exists [], (SQ :: r). repeat split; [constructor|right; right; eauto].
      * rewrite loop_quoted in E by exact H. rewrite app_length in Hn. cbn [length] in Hn.
        destruct (IH b _ _ _ ltac:(lia) E) as (ps & t & -> & H1 & H2 & H3).
        exists (Quoted a :: ps), t. split; [unfold word_src; cbn [flat_map piece_src]; cbn [app]; rewrite <- !app_assoc; reflexivity|].
        split; [constructor; assumption|]. auto.
    + cbn [command_loop] in E. rewrite Ec in E. destruct (c == BSL) eqn:Eb; [|discriminate]. apply eqb_true in Eb. subst c.
      destruct r as [|c r].
      { injection E as <-. exists [], [BSL]. repeat split; [constructor|right; left; reflexivity]. }
      cbn [command_loop] in E. destruct ((c == "!"%char) || (c == SQ)) eqn:E2; [|discriminate].
      cbn [length] in Hn. destruct (IH r _ _ _ ltac:(lia) E) as (ps & t & -> & H1 & H2 & H3).
      exists (Escaped c :: ps), t. split; [reflexivity|]. split; [|auto]. constructor; [|exact H1].
      cbn [piece_ok]. apply orb_true_iff in E2. rewrite !eqb_true in E2. exact E2.
Qed.
Lemma loop_word w r cur : ~ In SP w -> loop (w ++ r) cur StartCommand [] = loop r (cur + length w) StartCommand [].
Proof.
  revert cur. induction w as [|c w IH]; intros cur Hw; cbn [app length]; [rewrite Nat.add_0_r; reflexivity|].
  cbn [command_loop]. assert (E : (c == SP) = false) by (apply eqb_neq; intros ->; apply Hw; left; reflexivity). rewrite E.
  rewrite IH by (intro; apply Hw; right; assumption). f_equal. lia.
Qed.
End Command.

Lemma collect_nonempty rv ps : rv <> [] -> collect rv ps = rv ++ word_val ps.
Proof.
  revert rv. induction ps as [|p ps IH]; intros rv Hr; [unfold word_val; cbn; rewrite app_nil_r; reflexivity|].
  unfold word_val. cbn [flat_map]. fold (word_val ps). destruct p as [s|c]; cbn [collect piece_val].
  - assert (G : gain rv s = rv ++ s) by (unfold gain; destruct rv; [contradiction|reflexivity]). rewrite G, IH, <- app_assoc; [reflexivity|].
    destruct rv; [contradiction|discriminate].
  - rewrite IH, <- app_assoc; [reflexivity|]. destruct rv; discriminate.
Qed.
Lemma collect_relative ps : collect [] ps = relative ps.
Proof.
  induction ps as [|p ps IH]; [reflexivity|]. destruct p as [s|c]; cbn [collect relative].
  - unfold gain. cbn [length Nat.eqb app]. destruct (without_slash s) as [|x y] eqn:E; [exact IH|]. apply collect_nonempty. discriminate.
  - apply collect_nonempty. discriminate.
Qed.

Lemma known_verb cmd w r : cmd = w ++ SP :: r -> ~ In SP w -> known_command cmd (length w) = true <-> In w verbs.
Proof.
  intros -> Hw. unfold known_command, verbs. cbn [In].
  assert (F : forall n v, length v = n -> Nat.eqb (length w) n && beq (firstn n (w ++ SP :: r)) v = true <-> v = w).
  { intros n v Hv. rewrite andb_true_iff, Nat.eqb_eq. split.
    - intros [E1 E2]. apply beq_eq in E2. rewrite <- E1, firstn_app, Nat.sub_diag, firstn_all, firstn_O, app_nil_r in E2. congruence.
    - intros <-. split; [exact Hv|]. rewrite <- Hv, firstn_app, Nat.sub_diag, firstn_all, firstn_O, app_nil_r. apply beq_refl. }
  rewrite !orb_true_iff, !F by reflexivity. tauto.
Qed.
Lemma verb_nospace w : In w verbs -> ~ In SP w.
Proof. unfold verbs. cbn [In]. intros [<-|[<-|[<-|[]]]] H; vm_compute in H; intuition discriminate. Qed.

Lemma parse_exact cmd v : shell_command_parse cmd = Some v <->
  v <> [] /\ exists w ps t, cmd = w ++ [SP] ++ word_src ps ++ t /\ In w verbs /\ Forall piece_ok ps /\ unfinished t /\ v = relative ps.
Proof.
  unfold shell_command_parse. split.
  - intro H. assert (E : command_loop cmd cmd 0 StartCommand [] = Some v /\ v <> []).
    { destruct (command_loop cmd cmd 0 StartCommand []) as [[|c r]|]; try discriminate. injection H as <-. split; [reflexivity|discriminate]. }
    clear H. destruct E as [E Hv]. split; [exact Hv|]. destruct (cut_at SP cmd) as [H|(w & r & Ec & H)].
    + exfalso. rewrite <- (app_nil_r cmd) in E at 2. rewrite loop_word in E by exact H. injection E as <-. contradiction.
    + rewrite Ec in E at 2. rewrite loop_word in E by exact H. cbn [Nat.add] in E.
      cbn [command_loop] in E. rewrite eqb_refl in E. destruct (known_command cmd (length w)) eqn:K; [|discriminate].
      apply (known_verb Ec H) in K. destruct (loop_inv (Nat.le_refl _) E) as (ps & t & -> & H1 & H2 & ->).
      exists w, ps, t. split; [exact Ec|]. split; [exact K|]. split; [exact H1|]. split; [exact H2|]. apply collect_relative.
  - intros (Hv & w & ps & t & Ec & Hw & Hps & Ht & Er). cbn [app] in Ec.
    assert (E : command_loop cmd cmd 0 StartCommand [] = Some v).
    { rewrite Ec at 2. rewrite loop_word by (apply verb_nospace; exact Hw). cbn [Nat.add command_loop]. rewrite eqb_refl.
      assert (K : known_command cmd (length w) = true) by (apply (known_verb Ec (verb_nospace Hw)); exact Hw). rewrite K.
      destruct (loop_pieces cmd t Hps (length w + 1) []) as (cur & E). rewrite E, loop_tail by exact Ht. rewrite collect_relative, Er. reflexivity. }
    rewrite E. destruct v; [contradiction|reflexivity].
Qed.

Lemma nn_forall s : no_nul s <-> Forall (fun c => c <> NUL) s.
Proof.
  unfold no_nul. rewrite Forall_forall. split; [intros H c Hc ->; contradiction|intros H Hc; exact (H _ Hc eq_refl)].
Qed.
(* such a command as a shell reads it *)
Lemma sh_pieces ps : Forall piece_ok ps -> no_nul (word_src ps) -> forall done m w, m = Blank /\ w = [] \/ m = Word w -> ps <> [] \/ m = Word w ->
  sh_run (Sh done m) (word_src ps) = Some (Sh done (Word (w ++ word_val ps))).
Proof.
  intros Hok Hn0. rewrite nn_forall in Hn0. revert Hn0. induction Hok as [|p ps Hp Hps IH]; intros Hn done m w Hm Hne.
  - unfold word_src, word_val. cbn [flat_map sh_run]. rewrite app_nil_r. destruct Hne as [Hne|Hne]; [contradiction|]. rewrite Hne. reflexivity.
  - unfold word_src in *. cbn [flat_map] in *. fold (word_src ps) in *. apply Forall_app in Hn. destruct Hn as [Hn1 Hn2].
    rewrite sh_run_app. unfold word_val. cbn [flat_map]. fold (word_val ps). rewrite app_assoc.
    assert (E : sh_run (Sh done m) (piece_src p) = Some (Sh done (Word (w ++ piece_val p)))).
    { destruct p as [s|c]; cbn [piece_src piece_val piece_ok] in *.
      - cbn [sh_run]. assert (E1 : sh_step (Sh done m) SQ = Some (Sh done (Single w))).
        { unfold sh_step. cbn [sh_done sh_mode_of]. destruct Hm as [[-> ->]| ->]; reflexivity. }
        rewrite E1. rewrite Forall_cons_iff in Hn1. destruct Hn1 as [_ Hn1]. clear -Hp Hn1. revert w. induction s as [|c s IH]; intro w.
        + cbn [app sh_run]. unfold sh_step. cbn [sh_done sh_mode_of]. change (SQ == NUL) with false. rewrite eqb_refl, app_nil_r. reflexivity.
        + cbn [app sh_run]. cbn [app] in Hn1. rewrite Forall_cons_iff in Hn1. destruct Hn1 as [Hc Hn1].
          unfold sh_step at 1. cbn [sh_done sh_mode_of].
          assert (N1 : (c == NUL) = false) by (apply eqb_neq; exact Hc).
          assert (N2 : (c == SQ) = false) by (apply eqb_neq; intros ->; apply Hp; left; reflexivity). rewrite N1, N2.
          rewrite IH; [rewrite <- app_assoc; reflexivity|intro; apply Hp; right; assumption|exact Hn1].
      - cbn [sh_run]. assert (E1 : sh_step (Sh done m) BSL = Some (Sh done (Esc w))).
        { unfold sh_step. cbn [sh_done sh_mode_of]. destruct Hm as [[-> ->]| ->]; reflexivity. }
        rewrite E1. unfold sh_step. cbn [sh_done sh_mode_of]. destruct Hp as [-> | ->]; reflexivity. }
    rewrite E. apply IH; auto.
Qed.
Lemma sh_verb w : In w verbs -> sh_run (Sh [] Blank) (w ++ [SP]) = Some (Sh [w] Blank).
Proof. unfold verbs. cbn [In]. intros [<-|[<-|[<-|[]]]]; vm_compute; reflexivity. Qed.
Lemma sh_command w ps : In w verbs -> Forall piece_ok ps -> ps <> [] -> no_nul (word_src ps) ->
  sh_words (w ++ [SP] ++ word_src ps) = Some [w; word_val ps].
Proof.
  intros Hw Hps Hne Hn. unfold sh_words. rewrite app_assoc, sh_run_app, sh_verb by exact Hw.
  rewrite (@sh_pieces ps Hps Hn [w] Blank [] ltac:(auto) ltac:(auto)). reflexivity.
Qed.

(* ---------- paths ---------- *)
Lemma components_app p q : components (p ++ "/"%char :: q) = components p ++ components q.
Proof.
  unfold components at 1 2.
  enough (K : forall cur, components_go cur (p ++ "/"%char :: q) = components_go cur p ++ components q) by apply K.
  induction p as [|c p IH]; intro cur; cbn [app components_go].
  - change ("/" =? "/")%char with true. reflexivity.
  - destruct (c =? "/")%char; [cbn [app]; rewrite IH; reflexivity|apply IH].
Qed.
Lemma follow_app l : forall a m, follow a (l ++ m) = follow (follow a l) m.
Proof.
  induction l as [|c l IH]; intros a m; [reflexivity|]. cbn [app follow].
  destruct (list_eq_dec _ c []); [apply IH|]. destruct (list_eq_dec _ c (B ".")); [apply IH|].
  destruct (list_eq_dec _ c (B "..")); apply IH.
Qed.
Lemma follow_down l : ~ In (B "..") l -> forall a, below a (follow a l).
Proof.
  induction l as [|c l IH]; intros H a; cbn [follow]; [exists []; rewrite app_nil_r; reflexivity|].
  assert (H' : ~ In (B "..") l) by (intro; apply H; right; assumption).
  destruct (list_eq_dec _ c []); [apply IH; exact H'|]. destruct (list_eq_dec _ c (B ".")); [apply IH; exact H'|].
  destruct (list_eq_dec _ c (B "..")) as [->|]; [exfalso; apply H; left; reflexivity|].
  destruct (IH H' (a ++ [c])) as (r & E). exists (c :: r). rewrite E, <- app_assoc. reflexivity.
Qed.
Lemma repo_leads bd v : leads_to (bd ++ B "/repos/" ++ v) = follow (leads_to bd ++ [B "repos"]) (components v).
Proof.
  unfold leads_to. change (B "/repos/" ++ v) with ("/"%char :: B "repos" ++ "/"%char :: v).
  rewrite components_app, follow_app, components_app, follow_app. change (components (B "repos")) with [B "repos"].
  cbn [follow]. destruct (list_eq_dec _ (B "repos") []) as [E|_]; [discriminate E|].
  destruct (list_eq_dec _ (B "repos") (B ".")) as [E|_]; [discriminate E|].
  destruct (list_eq_dec _ (B "repos") (B "..")) as [E|_]; [discriminate E|]. reflexivity.
Qed.

(* ---------- the hook ---------- *)
Lemma hook_old o r tok new rv : Forall (fun c => c <> SP) o -> hook_loop (o ++ SP :: r) Old tok new rv = hook_loop r StartNew tok new rv.
Proof.
  induction 1 as [|c o Hc Ho IH]; cbn [app hook_loop]; [rewrite eqb_refl; reflexivity|]. apply eqb_neq in Hc. rewrite Hc. exact IH.
Qed.
Lemma hook_new n r tok new rv : Forall (fun c => c <> SP) n -> hook_loop (n ++ SP :: r) New tok new rv = hook_loop r StartRef [] (tok ++ n) rv.
Proof.
  intro H. revert tok. induction H as [|c o Hc Ho IH]; intro tok; cbn [app hook_loop]; [rewrite eqb_refl, app_nil_r; reflexivity|].
  apply eqb_neq in Hc. rewrite Hc, IH, <- app_assoc. reflexivity.
Qed.
Definition put (u : update) (rv : trie bytes) : trie bytes :=
  if Nat.ltb 11 (length (u_ref u)) && beq (firstn 11 (u_ref u)) (B "refs/heads/")
  then trie_insert rv (cstr (skipn 11 (u_ref u))) (cstr (u_new u)) else rv.
Lemma hook_ref_bytes f r tok new rv : Forall (fun c => c <> LF) f ->
  hook_loop (f ++ LF :: r) Ref tok new rv = hook_loop r StartOld (tok ++ f) new
    (if Nat.ltb 11 (length (tok ++ f)) && beq (firstn 11 (tok ++ f)) (B "refs/heads/")
     then trie_insert rv (cstr (skipn 11 (tok ++ f))) (cstr new) else rv).
Proof.
  intro H. revert tok. induction H as [|c o Hc Ho IH]; intro tok; cbn [app hook_loop]; [rewrite eqb_refl, app_nil_r; reflexivity|].
  apply eqb_neq in Hc. rewrite Hc, IH, <- app_assoc. reflexivity.
Qed.
Lemma hook_start r tok tok' new new' rv : hook_loop r StartOld tok new rv = hook_loop r StartOld tok' new' rv.
Proof.
  destruct r as [|c r]; [reflexivity|]. cbn [hook_loop].
  assert (K : forall r st, st = Old \/ st = StartNew \/ st = New -> forall tok new new', hook_loop r st tok new rv = hook_loop r st tok new' rv).
  { clear. induction r as [|c r IH]; intros st Hst tok new new'; [reflexivity|].
    destruct Hst as [->|[->| ->]]; cbn [hook_loop].
    - destruct (c == SP); apply IH; auto.
    - apply IH. auto.
    - destruct (c == SP); [reflexivity|apply IH; auto]. }
  apply K. left. reflexivity.
Qed.
Lemma hook_update u r rv : update_ok u -> hook_loop (update_src u ++ r) StartOld [] [] rv = hook_loop r StartOld [] [] (put u rv).
Proof.
  intros ((Ho & Fo) & (Hn & Fn) & (Hr & Fr)). unfold update_src, put. destruct u as [o n f]. cbn [u_old u_new u_ref] in *.
  assert (W : forall s, Forall (fun c => c <> SP /\ c <> LF /\ c <> NUL) s -> Forall (fun c => c <> SP) s /\ Forall (fun c => c <> LF) s).
  { intros s H. split; (eapply Forall_impl; [|exact H]); cbv beta; intros a Ha; apply Ha. }
  destruct o as [|o1 o]; [contradiction|]. destruct n as [|n1 n]; [contradiction|]. destruct f as [|f1 f]; [contradiction|].
  rewrite Forall_cons_iff in Fo, Fn, Fr.
  replace (((o1 :: o) ++ [SP] ++ (n1 :: n) ++ [SP] ++ (f1 :: f) ++ [LF]) ++ r)
    with (o1 :: o ++ SP :: n1 :: n ++ SP :: f1 :: f ++ LF :: r) by (repeat (cbn [app]; rewrite <- !app_assoc); reflexivity).
  cbn [hook_loop]. rewrite hook_old by (apply W; tauto). cbn [hook_loop].
  rewrite hook_new by (apply W; tauto). cbn [app hook_loop].
  rewrite hook_ref_bytes by (apply W; tauto). cbn [app]. apply hook_start.
Qed.
Lemma hook_updates l rv : Forall update_ok l -> hook_loop (flat_map update_src l) StartOld [] [] rv = fold_left (fun t u => put u t) l rv.
Proof.
  intro H. revert rv. induction H as [|u l Hu Hl IH]; intro rv; [reflexivity|]. cbn [flat_map fold_left]. rewrite hook_update by exact Hu. apply IH.
Qed.
Lemma token_nn s : token s -> no_nul s.
Proof. intros [_ H]. apply nn_forall. eapply Forall_impl; [|exact H]. cbv beta. intros a Ha. apply Ha. Qed.
Lemma put_lookup u rv b : update_ok u -> no_nul b -> b <> [] ->
  trie_lookup (put u rv) b = if list_eq_dec ascii_dec (u_ref u) (B "refs/heads/" ++ b) then Some (u_new u) else trie_lookup rv b.
Proof.
  intros (_ & Hn & Hr) Hb Hne. unfold put. apply token_nn in Hn, Hr.
  destruct (Nat.ltb 11 (length (u_ref u)) && beq (firstn 11 (u_ref u)) (B "refs/heads/")) eqn:E.
  - apply andb_true_iff in E. destruct E as [E1 E2]. apply beq_eq in E2.
    assert (D : u_ref u = B "refs/heads/" ++ skipn 11 (u_ref u)) by (rewrite <- E2; symmetry; apply firstn_skipn).
    assert (Hs : no_nul (skipn 11 (u_ref u))) by (intro H; apply Hr; rewrite D; apply in_or_app; right; exact H).
    rewrite !cstr_id by assumption. rewrite trie_lookup_insert by assumption. 
    destruct (beq_spec (skipn 11 (u_ref u)) b) as [Eb|N]; destruct (list_eq_dec _ _ _) as [E|E]; try reflexivity.
    + exfalso. apply E. rewrite D, Eb. reflexivity.
    + exfalso. apply N. rewrite E. reflexivity.
  - destruct (list_eq_dec _ _ _) as [D|D]; [|reflexivity]. exfalso. rewrite D in E.
    rewrite app_length, firstn_app in E. change (length (B "refs/heads/")) with 11 in E.
    change (firstn 11 (B "refs/heads/")) with (B "refs/heads/") in E. change (11 - 11) with 0 in E. rewrite firstn_O, app_nil_r, beq_refl in E.
    destruct b; [contradiction|]. cbn [length] in E. rewrite andb_true_r in E. apply Nat.ltb_ge in E. lia.
Qed.
Lemma puts_lookup l : Forall update_ok l -> forall rv b, no_nul b -> b <> [] ->
  trie_lookup (fold_left (fun t u => put u t) l rv) b = match pushed l b with Some v => Some v | None => trie_lookup rv b end.
Proof.
  induction 1 as [|u l Hu Hl IH]; intros rv b Hb Hne; [reflexivity|]. cbn [fold_left pushed]. rewrite IH by assumption.
  destruct (pushed l b); [reflexivity|]. rewrite put_lookup by assumption. destruct (list_eq_dec _ _ _); reflexivity.
Qed.

Lemma hook_rest t st tok new rv : ~ In LF t -> hook_loop t st tok new rv = rv.
Proof.
  revert st tok new rv. induction t as [|c t IH]; intros st tok new rv H; [reflexivity|]. cbn [hook_loop].
  assert (E : (c == LF) = false) by (apply eqb_neq; intros ->; apply H; left; reflexivity).
  assert (H' : ~ In LF t) by (intro; apply H; right; assumption).
  destruct st; rewrite ?E; try (apply IH; exact H'); destruct (c == SP); apply IH; exact H'.
Qed.
Lemma hook_updates_app l r : Forall update_ok l -> forall rv,
  hook_loop (flat_map update_src l ++ r) StartOld [] [] rv = hook_loop r StartOld [] [] (fold_left (fun t u => put u t) l rv).
Proof.
  induction 1 as [|u l Hu Hl IH]; intro rv; [reflexivity|]. cbn [flat_map fold_left]. rewrite <- app_assoc, hook_update by exact Hu. apply IH.
Qed.
Lemma put_wf u rv : wf rv -> wf (put u rv).
Proof. intro H. unfold put. destruct (_ && _); [|exact H]. apply trie_insert_wf; [apply cstr_no_nul|exact H]. Qed.
Lemma puts_wf l : forall rv, wf rv -> wf (fold_left (fun t u => put u t) l rv).
Proof. induction l as [|u l IH]; intros rv H; [exact H|]. apply IH. apply put_wf. exact H. Qed.
Lemma empty_lookup (t : trie bytes) k : wf t -> trie_size t = 0 -> no_nul k -> trie_lookup t k = None.
Proof.
  intros Hw Hs Hk. destruct (trie_lookup t k) as [v|] eqn:E; [|reflexivity]. exfalso. rewrite size_foreach in Hs.
  assert (I : In (k, Some v) (trie_foreach t)) by (apply foreach_lookup; [exact Hw|split; [exact Hk|eauto]]).
  destruct (trie_foreach t); [contradiction|discriminate].
Qed.

(* ---------- the login shell ---------- *)
Lemma relative_plain ps : (forall r, word_val ps <> "/"%char :: r) -> relative ps = word_val ps.
Proof.
  induction ps as [|[s|c] ps IH]; intro H; [reflexivity| |reflexivity].
  unfold word_val in *. cbn [relative flat_map piece_val] in *. destruct s as [|x s]; cbn [without_slash app] in *; [apply IH; exact H|].
  destruct (x =? "/")%char eqn:E; [|reflexivity]. apply eqb_true in E. subst x. exfalso. exact (H _ eq_refl).
Qed.
Lemma relative_once ps : Forall piece_ok ps -> (forall r, word_val ps <> B "//" ++ r) -> relative ps = without_slash (word_val ps).
Proof.
  induction 1 as [|[s|c] ps Hp Hps IH]; intro H; [reflexivity| |].
  - unfold word_val in *. cbn [relative flat_map piece_val] in *. destruct s as [|x s]; cbn [without_slash app] in *; [apply IH; exact H|].
    destruct (x =? "/")%char eqn:E; [|reflexivity]. apply eqb_true in E. subst x. destruct s as [|y s]; [|reflexivity].
    apply relative_plain. intros r Er. cbn [app] in *. apply (H r). unfold word_val in Er. rewrite Er. reflexivity.
  - cbn [relative]. unfold word_val. cbn [flat_map piece_val app without_slash]. destruct Hp as [-> | ->]; reflexivity.
Qed.
Lemma sh_unfinished t done m : t <> [] -> unfinished t -> m = Blank \/ (exists w, m = Word w) ->
  match sh_run (Sh done m) t with Some (Sh _ Blank) | Some (Sh _ (Word _)) => False | _ => True end.
Proof.
  intros Hne [->|[->|(s & -> & Hs)]] Hm; [contradiction| |].
  - cbn [sh_run]. unfold sh_step. cbn [sh_mode_of sh_done]. destruct Hm as [->|(w & ->)]; exact I.
  - cbn [sh_run]. assert (E : exists w, sh_step (Sh done m) SQ = Some (Sh done (Single w))).
    { unfold sh_step. cbn [sh_mode_of sh_done]. destruct Hm as [->|(w & ->)]; eexists; reflexivity. }
    destruct E as (w & ->). clear -Hs. revert w. induction s as [|c s IH]; intro w; [exact I|]. cbn [sh_run].
    unfold sh_step at 1. cbn [sh_mode_of sh_done]. destruct (c == NUL); [exact I|].
    assert (E : (c == SQ) = false) by (apply eqb_neq; intros ->; apply Hs; left; reflexivity). rewrite E.
    apply IH. intro; apply Hs; right; assumption.
Qed.
Lemma parse_words cmd v ws : no_nul cmd -> shell_command_parse cmd = Some v -> sh_words cmd = Some ws ->
  exists w ps, cmd = w ++ [SP] ++ word_src ps /\ In w verbs /\ Forall piece_ok ps /\ ws = [w; word_val ps] /\ v = relative ps.
Proof.
  intros Hn Hp Hw. apply parse_exact in Hp. destruct Hp as (Hv & w & ps & t & -> & H1 & H2 & H3 & ->).
  assert (Hps : ps <> []) by (intros ->; apply Hv; reflexivity).
  assert (Hnp : no_nul (word_src ps)) by (intro I; apply Hn; apply in_or_app; right; right; change (In NUL (word_src ps ++ t)); apply in_or_app; left; exact I).
  assert (T : t = []).
  { destruct t as [|c t]; [reflexivity|]. exfalso. unfold sh_words in Hw.
    rewrite (app_assoc w), sh_run_app, (sh_verb H1), sh_run_app in Hw.
    rewrite (@sh_pieces ps H2 Hnp [w] Blank [] ltac:(auto) ltac:(auto)) in Hw. cbn [app] in Hw.
    pose proof (@sh_unfinished (c :: t) [w] (Word (word_val ps)) ltac:(discriminate) H3 ltac:(eauto)) as K.
    destruct (sh_run _ (c :: t)) as [[d m]|]; [|discriminate]. destruct m; try discriminate; exact K. }
  subst t. rewrite app_nil_r in *. rewrite sh_command in Hw by assumption. injection Hw as <-. exists w, ps. auto.
Qed.
Lemma first_word_app w r : ~ In SP w -> first_word (w ++ SP :: r) = w.
Proof.
  unfold first_word. induction w as [|c w IH]; intro H; cbn [app]; [rewrite eqb_refl; reflexivity|].
  assert (E : (c == SP) = false) by (apply eqb_neq; intros ->; apply H; left; reflexivity). rewrite E, IH; [reflexivity|].
  intro; apply H; right; assumption.
Qed.
Definition wd_next (cwd : bytes) (a : scall) (ok : bool) : bytes :=
  match a with Chdir p => if ok then seen_from cwd p else cwd | _ => cwd end.
Lemma incl_piece p : incl (piece_val p) (piece_src p).
Proof. destruct p as [s|c]; intros x Hx; cbn [piece_val piece_src] in *; [right; apply in_or_app; left; exact Hx|right; exact Hx]. Qed.
Lemma incl_word ps : incl (word_val ps) (word_src ps).
Proof.
  unfold word_val, word_src. induction ps as [|p ps IH]; [intros x []|]. cbn [flat_map]. apply incl_app_app; [apply incl_piece|apply IH].
Qed.
Lemma incl_relative ps : incl (relative ps) (word_val ps).
Proof.
  induction ps as [|[s|c] ps IH]; [intros x []| |apply incl_refl]. unfold word_val in *. cbn [relative flat_map piece_val].
  destruct (without_slash s) as [|y z] eqn:E; [apply incl_appr; exact IH|].
  apply incl_app_app; [|apply incl_refl]. rewrite <- E. unfold without_slash. destruct s as [|k s]; [apply incl_refl|].
  destruct (k =? "/")%char; [apply incl_tl|]; apply incl_refl.
Qed.
Lemma repo_nn cmd bd v : no_nul cmd -> no_nul bd -> shell_command_parse cmd = Some v -> no_nul (bd ++ B "/repos/" ++ v).
Proof.
  intros Hn Hb Hp J. apply parse_exact in Hp. destruct Hp as (Hv & w & ps & tl & Ec & Hw & Hps & Htl & Hr).
  apply in_app_or in J. destruct J as [J|J]; [exact (Hb J)|]. apply in_app_or in J. destruct J as [J|J]; [vm_compute in J; intuition discriminate|].
  rewrite Hr in J. apply Hn. rewrite Ec. apply in_or_app. right. right. change (In NUL (word_src ps ++ tl)). apply in_or_app. left.
  apply incl_word, incl_relative, J.
Qed.
