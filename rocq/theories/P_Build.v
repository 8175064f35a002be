(* C66 and C67: blogc-make all brings the site up to date, and leaves alone what is. *)
From Verif Require Import Base Utils Trie TrieProofs Settings Filename Source BlogcCmd Rules RulesSpec P_Rules BuildSpec P_Order.
From Verif Require BlockOut Content P_Filename.
From Coq Require Import ZArith.
#[local] Open Scope nat_scope.
#[local] Arguments B : simpl never.

Lemma run_all_ext {W A A'} (s1 : A -> W -> W * res nat) (s2 : A' -> W -> W * res nat) l1 l2 :
  Forall2 (fun a b => forall w, s1 a w = s2 b w) l1 l2 -> forall w, run_all s1 l1 w = run_all s2 l2 w.
Proof.
  induction 1 as [|a b l1 l2 H _ IH]; intro w; [reflexivity|]. cbn [run_all]. rewrite H. destruct (s2 b w) as [w1 [[|n]| |]]; auto.
Qed.
Lemma somes_in {A} (l : list (option A)) x : In x (somes l) <-> In (Some x) l.
Proof.
  unfold somes. rewrite in_flat_map. split.
  - intros (y & Hy & Hx). destruct y as [y|]; [|destruct Hx]. destruct Hx as [->|[]]. exact Hy.
  - intro H. exists (Some x). split; [exact H|left; reflexivity].
Qed.
Lemma somes_app {A} (l l' : list (option A)) : somes (l ++ l') = somes l ++ somes l'.
Proof. unfold somes. apply flat_map_app. Qed.

(* ---- every rule does a list of jobs ---- *)
(* the variables *)
Lemma nul_free n : no_nulb n = true -> no_nul n.
Proof. apply no_nulb_spec. Qed.
Ltac table := split; [repeat (apply trie_insert_wf; [apply nul_free; reflexivity|]); exact I|]; intros n Hn; repeat (rewrite trie_lookup_insert by (exact Hn || (apply nul_free; reflexivity))); rewrite ?trie_lookup_new;
  cbn [assoc app first_page order_vars html_kind feed_kind kind slug_of numbered];
  repeat match goal with |- context [beq ?k n] => let E := fresh in destruct (beq k n) eqn:E; [apply beq_eq in E; subst n; reflexivity|] end; reflexivity.
Definition the_order (c : ctx) (k : bytes) : list (bytes * bytes) :=
  let sort := str_to_bool (look c (B "posts_sort")) in let a := strcaseeq (look_str c k) (B "asc") in
  (if sort then [(B "FILTER_SORT", B "1")] else []) ++ (if Bool.eqb sort a then [(B "FILTER_REVERSE", B "1")] else []).
Lemma the_order_vars c k : order_vars c k (the_order c k).
Proof. do 2 eexists. split; [apply on_spec|]. split; [apply asc_spec|]. reflexivity. Qed.
Lemma list_vars_means c rule : means (list_vars c rule) (first_page c (B "posts_per_page") ++ the_order c (B "html_order") ++ html_kind c rule (B "post")).
Proof.
  unfold list_vars, posts_pagination, posts_ordering, first_page, the_order. destruct (Z.leb _ _), (str_to_bool _), (strcaseeq _ _);
    cbn [andb orb negb Bool.eqb]; table.
Qed.
Lemma atom_vars_means c rule : means (atom_vars c rule) (first_page c (B "atom_posts_per_page") ++ the_order c (B "atom_order") ++ feed_kind rule).
Proof.
  unfold atom_vars, posts_pagination, posts_ordering, first_page, the_order. destruct (Z.leb _ _), (str_to_bool _), (strcaseeq _ _);
    cbn [andb orb negb Bool.eqb]; table.
Qed.
Lemma pagination_vars_means c rule :
  means (pagination_vars c rule) ((B "FILTER_PER_PAGE", look_str c (B "posts_per_page")) :: the_order c (B "html_order") ++ html_kind c rule (B "post")).
Proof.
  unfold pagination_vars, posts_ordering, the_order. destruct (str_to_bool _), (strcaseeq _ _); cbn [andb orb negb Bool.eqb]; table.
Qed.
Lemma posts_vars_means c : means (posts_vars c) ((B "IS_POST", B "1") :: the_order c (B "html_order") ++ html_kind c (B "posts") (B "post")).
Proof.
  unfold posts_vars, posts_ordering, the_order. destruct (str_to_bool _), (strcaseeq _ _); cbn [andb orb negb Bool.eqb]; table.
Qed.
Lemma pages_vars_means c : means (pages_vars c) (html_kind c (B "pages") (B "page")).
Proof. unfold pages_vars. table. Qed.

(* a variable replaced in a trie that is used again and again *)
Definition replaced (base v : trie bytes) (ks : list (bytes * bytes)) : Prop :=
  wf v /\ forall n, no_nul n -> trie_lookup v n = match assoc n ks with Some x => Some x | None => trie_lookup base n end.
Definition but (ks : list bytes) (base v : trie bytes) : Prop :=
  wf v /\ forall n, no_nul n -> ~ In n ks -> trie_lookup v n = trie_lookup base n.
Lemma but_replaced k base v x : no_nul k -> but [k] base v -> replaced base (trie_insert v k x) [(k, x)].
Proof.
  intros Hk [Hw H]. split; [apply trie_insert_wf; assumption|]. intros n Hn. rewrite trie_lookup_insert by assumption. cbn [assoc]. destruct (beq k n) eqn:E; [reflexivity|]. apply H; [exact Hn|].
  intros [->|[]]. rewrite beq_refl in E. discriminate.
Qed.
Lemma but_insert ks k base v x : no_nul k -> In k ks -> but ks base v -> but ks base (trie_insert v k x).
Proof.
  intros Hk Hi [Hw H]. split; [apply trie_insert_wf; assumption|]. intros n Hn N. rewrite trie_lookup_insert by assumption. destruct (beq k n) eqn:E; [apply beq_eq in E; subst; contradiction|]. apply H; assumption.
Qed.
Lemma tag_vars_replaced base : forall tags v, but [B "FILTER_TAG"] base v ->
  Forall2 (fun t v' => replaced base v' [(B "FILTER_TAG", t)]) tags (tag_vars v tags).
Proof.
  induction tags as [|t r IH]; intros v H; cbn [tag_vars]; constructor.
  - apply but_replaced; [apply nul_free; reflexivity|exact H].
  - apply IH. apply but_insert; [apply nul_free; reflexivity|left; reflexivity|exact H].
Qed.
Lemma numbered_replaced base : forall m k v, but [B "FILTER_PAGE"] base v ->
  Forall2 (fun k v' => replaced base v' [(B "FILTER_PAGE", digits k)]) (seq k m) (numbered_vars v k m).
Proof.
  induction m as [|m IH]; intros k v H; cbn [numbered_vars seq]; constructor.
  - apply but_replaced; [apply nul_free; reflexivity|exact H].
  - rewrite Nat.add_1_r. apply IH. apply but_insert; [apply nul_free; reflexivity|left; reflexivity|exact H].
Qed.
Lemma assoc_app n a b : assoc n (a ++ b) = match assoc n a with Some x => Some x | None => assoc n b end.
Proof. induction a as [|[k x] a IH]; [reflexivity|]. cbn [app assoc]. destruct (beq k n); [reflexivity|exact IH]. Qed.
Lemma replaced_front base v ks l : means base l -> replaced base v ks -> means v (ks ++ l).
Proof. intros [_ H1] [Hw H2]. split; [exact Hw|]. intros n Hn. rewrite (H2 n Hn), assoc_app, (H1 n Hn). reflexivity. Qed.
Lemma means_swap v k x l : assoc k l = None -> means v ((k, x) :: l) -> means v (l ++ [(k, x)]).
Proof.
  intros H1 [Hw H2]. split; [exact Hw|]. intros n Hn. rewrite (H2 n Hn), assoc_app. cbn [assoc]. destruct (beq k n) eqn:E; [apply beq_eq in E; subst; rewrite H1; reflexivity|].
  destruct (assoc n l); reflexivity.
Qed.
Lemma but_refl ks v l : means v l -> but ks v v.
Proof. intros [Hw _]. split; [exact Hw|]. intros n _ _. reflexivity. Qed.
Lemma no_tag c k1 o ks : assoc (B "FILTER_TAG") ks = None -> assoc (B "FILTER_TAG") (first_page c k1 ++ the_order c o ++ ks) = None.
Proof. intro H. unfold first_page, the_order. destruct (Z.leb _ _), (str_to_bool _), (strcaseeq _ _); cbn [Bool.eqb app assoc]; exact H. Qed.
Lemma tag_listing c rule t v : replaced (list_vars c rule) v [(B "FILTER_TAG", t)] ->
  means v (first_page c (B "posts_per_page") ++ the_order c (B "html_order") ++ html_kind c rule (B "post") ++ [(B "FILTER_TAG", t)]).
Proof.
  intro H. apply (replaced_front (list_vars_means c rule)) in H. apply means_swap in H; [|apply no_tag; reflexivity]. rewrite <- !app_assoc in H. exact H.
Qed.
Lemma tag_feed c rule t v : replaced (atom_vars c rule) v [(B "FILTER_TAG", t)] ->
  means v (first_page c (B "atom_posts_per_page") ++ the_order c (B "atom_order") ++ feed_kind rule ++ [(B "FILTER_TAG", t)]).
Proof.
  intro H. apply (replaced_front (atom_vars_means c rule)) in H. apply means_swap in H; [|apply no_tag; reflexivity]. rewrite <- !app_assoc in H. exact H.
Qed.
Lemma numbered_page c k v rule : replaced (pagination_vars c rule) v [(B "FILTER_PAGE", digits k)] ->
  means v (numbered c k ++ the_order c (B "html_order") ++ html_kind c rule (B "post")).
Proof. intro H. exact (replaced_front (pagination_vars_means c rule) H). Qed.
Lemma numbered_tag c rule t k v : but [B "FILTER_TAG"; B "FILTER_PAGE"] (pagination_vars c rule) v ->
  means (trie_insert (trie_insert v (B "FILTER_TAG") t) (B "FILTER_PAGE") (digits k))
    (numbered c k ++ the_order c (B "html_order") ++ html_kind c rule (B "post") ++ [(B "FILTER_TAG", t)]).
Proof.
  intros [Hw H].
  assert (R : replaced (pagination_vars c rule) (trie_insert (trie_insert v (B "FILTER_TAG") t) (B "FILTER_PAGE") (digits k)) [(B "FILTER_TAG", t); (B "FILTER_PAGE", digits k)]).
  { split; [repeat (apply trie_insert_wf; [apply nul_free; reflexivity|]); exact Hw|].
    intros n Hn. rewrite !trie_lookup_insert by (exact Hn || (apply nul_free; reflexivity)). cbn [assoc].
    destruct (beq (B "FILTER_TAG") n) eqn:E1; [apply beq_eq in E1; subst n; reflexivity|]. destruct (beq (B "FILTER_PAGE") n) eqn:E2; [reflexivity|].
    apply H; [exact Hn|]. intros [<-|[<-|[]]]; rewrite beq_refl in *; discriminate. }
  apply (replaced_front (pagination_vars_means c rule)) in R. cbn [app] in R. apply means_swap in R.
  - cbn [app] in R. rewrite <- app_assoc in R. exact R.
  - unfold the_order. destruct (str_to_bool _), (strcaseeq _ _); reflexivity.
Qed.
Lemma slug_means f : means (match f_slug f with Some sl => trie_insert trie_new (B "MAKE_SLUG") sl | None => trie_new end) (slug_of f).
Proof. unfold slug_of. destruct (f_slug f); table. Qed.

Record job : Type := Job { j_name : option bytes; j_deps : list (option fctx); j_run : jrun }.

Section Build.
Variable W : Type.
Variable stat : W -> bytes -> option (Z * Z).
Variable command : W -> bytes -> bytes -> W * cmd_result.
Variable cp : W -> fctx -> fctx -> W * nat.
Notation out := (out stat).

Definition perform (c : ctx) (r : jrun) (o : fctx) (w : W) : W * res nat :=
  match r with
  | JBlogc gv lv listing entry template sources first => run_blogc command c gv lv listing entry template o sources first w
  | JCopy s => let (w, rv) := cp w s o in (w, Ok rv)
  end.
Definition do_job (c : ctx) (w0 : W) (j : job) (w : W) : W * res nat :=
  match out c w0 (j_name j) with
  | None => (w, Ok 0)
  | Some o => if (if negb (f_readable o) then true else existsb (stale o) (j_deps j)) then perform c (j_run j) o w else (w, Ok 0)
  end.

Definition listing_d (c : ctx) : list (option fctx) := [Some (c_settings c); Some (c_main c)] ++ opt_list (c_entry c) ++ c_posts c.
Definition feed_d (c : ctx) : list (option fctx) := [Some (c_settings c)] ++ opt_list (if c_atom_tmp c then None else Some (c_atom c)) ++ c_posts c.
Definition one_d (c : ctx) (f : option fctx) : list (option fctx) := [Some (c_settings c); Some (c_main c); f].
Definition copy_d (c : ctx) (f : fctx) : list (option fctx) := [Some (c_settings c); Some f].

Definition listing_job (c : ctx) (vars : trie bytes) (n : option bytes) : job :=
  Job n (listing_d c) (JBlogc (Some vars) None true (c_entry c) (c_main c) (c_posts c) false).
Definition feed_job (c : ctx) (vars : trie bytes) (n : option bytes) : job :=
  Job n (feed_d c) (JBlogc (Some vars) None true None (c_atom c) (c_posts c) false).
Definition slug_vars (f : fctx) : trie bytes := match f_slug f with Some sl => trie_insert trie_new (B "MAKE_SLUG") sl | None => trie_new end.
Definition one_job (c : ctx) (vars : trie bytes) (l : list (option fctx)) (f : fctx) (n : option bytes) : job :=
  Job n (one_d c (Some f)) (JBlogc (Some vars) (Some (slug_vars f)) false None (c_main c) l true).

Lemma listing_job_do c vars n w0 w : build_listing command c vars (out c w0 n) w = do_job c w0 (listing_job c vars n) w.
Proof.
  unfold build_listing, do_job, listing_job. cbn [j_name j_deps j_run perform]. destruct (out c w0 n) as [o|]; [|reflexivity].
  unfold need_rebuild, listing_d, opt_list at 1 2. reflexivity.
Qed.
Lemma feed_job_do c vars n w0 w : build_atom command c vars (out c w0 n) w = do_job c w0 (feed_job c vars n) w.
Proof.
  unfold build_atom, do_job, feed_job. cbn [j_name j_deps j_run perform]. destruct (out c w0 n) as [o|]; [|reflexivity].
  unfold need_rebuild, feed_d. cbn [opt_list app]. reflexivity.
Qed.
Lemma one_job_do c vars f r n w0 w : build_one command c vars (Some f :: r, out c w0 n) w = do_job c w0 (one_job c vars (Some f :: r) f n) w.
Proof.
  unfold build_one, do_job, one_job. cbn [j_name j_deps j_run perform fst snd]. destruct (out c w0 n) as [o|]; [|reflexivity].
  unfold need_rebuild, one_d. cbn [opt_list app firstn]. reflexivity.
Qed.
Lemma copy_job_do c f n w0 w : copy_one cp c (f, out c w0 n) w = do_job c w0 (Job n (copy_d c f) (JCopy f)) w.
Proof.
  unfold copy_one, do_job. cbn [j_name j_deps j_run perform fst snd]. destruct (out c w0 n) as [o|]; [|reflexivity].
  unfold need_rebuild, copy_d. cbn [opt_list app firstn]. reflexivity.
Qed.

(* the worlds in which what is asked and run is expected to work, say those where the
   inputs are still the same *)
Variable good : W -> Prop.
(* the answers of blogc about the last page *)
Definition answers (c : ctx) (answer : option bytes -> option bytes) : Prop :=
  (forall w, good w -> ask_blogc command c (Some (posts_pagination c trie_new (B "posts_per_page"))) None (B "LAST_PAGE") w = (w, Ok (answer None)))
  /\ (forall tags t w, good w -> s_tags (c_st c) = Some tags -> In t tags ->
        ask_blogc command c (Some (posts_pagination c trie_new (B "posts_per_page"))) (Some (trie_insert trie_new (B "FILTER_TAG") t))
                    (B "LAST_PAGE") w = (w, Ok (answer (Some t))))
  /\ forall t s, answer t = Some s -> (0 <= fst (strtol s))%Z.

Notation rule := (rule W).
Definition turn : Type := option bytes * list (option fctx).
Definition does (c : ctx) (r : rule) (l : list turn) : Prop :=
  forall w, good w -> exists jobs, map (fun j => (j_name j, j_deps j)) jobs = l /\ rule_execute c r w = run_all (do_job c w) jobs w
    /\ forall j n, In j jobs -> j_name j = Some n -> recipe c (r_name r) n (j_run j).
Definition covers (c : ctx) (answer : option bytes -> option bytes) (rule : bytes) (l : list turn) : Prop :=
  (forall n d, product c answer rule n d -> exists D, In (Some n, D) l /\ somes D = d)
  /\ (forall n D, In (Some n, D) l -> product c answer rule n (somes D))
  /\ forall n D, In (n, D) l -> ~ In None D.

Lemma listing_d_somes c : somes (listing_d c) = listing_deps c.
Proof. unfold listing_d, listing_deps. rewrite !somes_app. cbn [somes flat_map app]. destruct (c_entry c); reflexivity. Qed.
Lemma feed_d_somes c : somes (feed_d c) = feed_deps c.
Proof. unfold feed_d, feed_deps. rewrite !somes_app. cbn [somes flat_map app]. destruct (c_atom_tmp c); reflexivity. Qed.
Lemma listing_d_none c : site_ok c -> ~ In None (listing_d c).
Proof.
  intros (_ & H & _) I. unfold listing_d in I. cbn [app] in I. destruct I as [I|[I|I]]; try discriminate. apply in_app_or in I.
  destruct I as [I|I]; [|contradiction]. destruct (c_entry c); cbn in I; [destruct I as [I|[]]; discriminate|contradiction].
Qed.
Lemma feed_d_none c : site_ok c -> ~ In None (feed_d c).
Proof.
  intros (_ & H & _) I. unfold feed_d in I. cbn [app] in I. destruct I as [I|I]; try discriminate. apply in_app_or in I.
  destruct I as [I|I]; [|contradiction]. destruct (c_atom_tmp c); cbn in I; [contradiction|destruct I as [I|[]]; discriminate].
Qed.

Lemma enabled_shown c k : posts_pagination_enabled c k = true <-> shown c k.
Proof. unfold posts_pagination_enabled, shown. rewrite negb_true_iff, Z.eqb_neq. reflexivity. Qed.
Lemma does_nil c r : (forall w, good w -> rule_execute c r w = (w, Ok 0)) -> does c r [].
Proof. intros H w Hw. exists []. split; [reflexivity|]. split; [apply H; exact Hw|intros j n []]. Qed.
Lemma covers_nil c answer rule : (forall n d, ~ product c answer rule n d) -> covers c answer rule [].
Proof. intro H. split; [intros n d P; destruct (H n d P)|]. split; intros n D []. Qed.

Lemma tag_vars_length vars tags : length (tag_vars vars tags) = length tags.
Proof. revert vars. induction tags as [|t r IH]; intro vars; [reflexivity|]. cbn [tag_vars length]. rewrite IH. reflexivity. Qed.
Lemma numbered_length vars k n : length (numbered_vars vars k n) = n.
Proof. revert vars k. induction n as [|n IH]; intros vars k; [reflexivity|]. cbn [numbered_vars length]. rewrite IH. reflexivity. Qed.

(* a rule whose turns are outputs with variables of their own *)
Lemma with_vars {X V} (c : ctx) (D : list (option fctx)) (name : X -> option bytes) (step : V -> option fctx -> W -> W * res nat)
  (mk : V -> option bytes -> job) (w0 : W) :
  (forall v n, j_name (mk v n) = n /\ j_deps (mk v n) = D) ->
  (forall v n w, step v (out c w0 n) w = do_job c w0 (mk v n) w) ->
  forall xs vs, length vs = length xs ->
  exists jobs, map (fun j => (j_name j, j_deps j)) jobs = map (fun x => (name x, D)) xs /\
    (forall w, run_all (fun ov => step (snd ov) (fst ov)) (combine (map (fun x => out c w0 (name x)) xs) vs) w = run_all (do_job c w0) jobs w)
    /\ forall j, In j jobs -> exists x v, In (x, v) (combine xs vs) /\ j = mk v (name x).
Proof.
  intros Hm Hs xs vs Hl. exists (map (fun xv => mk (snd xv) (name (fst xv))) (combine xs vs)). split; [|split].
  - rewrite map_map. rewrite (map_ext _ (fun xv => (name (fst xv), D))) by (intros [x v]; cbn [fst snd]; destruct (Hm v (name x)) as [-> ->]; reflexivity).
    clear Hs. revert vs Hl. induction xs as [|x xs IH]; intros [|v vs] Hl; try discriminate; [reflexivity|]. cbn [combine map fst]. f_equal. apply IH.
    injection Hl as Hl. exact Hl.
  - intro w. apply run_all_ext. clear Hm. revert vs Hl. induction xs as [|x xs IH]; intros [|v vs] Hl; try discriminate; [constructor|].
    cbn [combine map]. constructor; [intro w'; cbn [fst snd]; apply Hs|]. apply IH. injection Hl as Hl. exact Hl.
  - intros j Hj. apply in_map_iff in Hj. destruct Hj as ((x, v) & E & Hj). exists x, v. auto.
Qed.
Lemma combine_forall2 {X V} (R : X -> V -> Prop) xs vs : Forall2 R xs vs -> forall x v, In (x, v) (combine xs vs) -> R x v.
Proof. induction 1 as [|a b xs vs H _ IH]; intros x v Hi; [destruct Hi|]. destruct Hi as [E|Hi]; [injection E as <- <-; exact H|apply IH; exact Hi]. Qed.

Lemma refines_index c answer : site_ok c -> exists l, does c (Rule (B "index") (pure (index_outputs stat)) (index_exec command)) l /\ covers c answer (B "index") l.
Proof.
  intro Hok. destruct (s_posts (c_st c)) as [posts|] eqn:Ep.
  2: { exists []. split; [apply does_nil; intros w Hw; unfold rule_execute, index_exec; cbn [r_outputs pure r_exec]; rewrite Ep; reflexivity|].
       apply covers_nil. intros n d P. inversion P; congruence. }
  set (name := generate_filename (dir c) (look c (B "blog_prefix")) (look c (B "index_prefix")) None (look c (B "html_ext"))).
  destruct (posts_pagination_enabled c (B "posts_per_page")) eqn:Ee.
  - exists [(name, listing_d c)]. split.
    + intros w Hw. exists [listing_job c (list_vars c (B "index")) name]. split; [reflexivity|]. unfold rule_execute, index_exec, index_outputs.
      cbn [r_outputs pure r_exec r_name]. rewrite Ep, Ee. cbn [run_all]. fold name. rewrite listing_job_do. split; [reflexivity|].
      intros j n [<-|[]] En. cbn [j_run listing_job]. eapply R_index; [exact En|apply the_order_vars|apply list_vars_means].
    + apply enabled_shown in Ee. split; [|split].
      * intros n d P. inversion P; subst; try discriminate. exists (listing_d c). split; [left; f_equal; assumption|apply listing_d_somes].
      * intros n D [E|[]]. injection E as E <-. rewrite listing_d_somes. apply P_index; [congruence|exact Ee|exact E].
      * intros n D [E|[]]. injection E as _ <-. apply listing_d_none. exact Hok.
  - exists []. split.
    + apply does_nil. intros w Hw. unfold rule_execute, index_exec, index_outputs. cbn [r_outputs pure r_exec]. rewrite Ep, Ee. reflexivity.
    + apply covers_nil. intros n d P. inversion P; subst. match goal with H : shown _ _ |- _ => apply enabled_shown in H; congruence end.
Qed.
Lemma refines_atom c answer : site_ok c -> exists l, does c (Rule (B "atom") (pure (atom_outputs stat)) (atom_exec command)) l /\ covers c answer (B "atom") l.
Proof.
  intro Hok. destruct (s_posts (c_st c)) as [posts|] eqn:Ep.
  2: { exists []. split; [apply does_nil; intros w Hw; unfold rule_execute, atom_exec; cbn [r_outputs pure r_exec]; rewrite Ep; reflexivity|].
       apply covers_nil. intros n d P. inversion P; congruence. }
  set (name := generate_filename (dir c) (look c (B "blog_prefix")) (look c (B "atom_prefix")) None (look c (B "atom_ext"))).
  destruct (posts_pagination_enabled c (B "atom_posts_per_page")) eqn:Ee.
  - exists [(name, feed_d c)]. split.
    + intros w Hw. exists [feed_job c (atom_vars c (B "atom")) name]. split; [reflexivity|]. unfold rule_execute, atom_exec, atom_outputs.
      cbn [r_outputs pure r_exec r_name]. rewrite Ep, Ee. cbn [run_all]. fold name. rewrite feed_job_do. split; [reflexivity|].
      intros j n [<-|[]] En. cbn [j_run feed_job]. eapply R_atom; [exact En|apply the_order_vars|apply atom_vars_means].
    + apply enabled_shown in Ee. split; [|split].
      * intros n d P. inversion P; subst; try discriminate. exists (feed_d c). split; [left; f_equal; assumption|apply feed_d_somes].
      * intros n D [E|[]]. injection E as E <-. rewrite feed_d_somes. apply P_atom; [congruence|exact Ee|exact E].
      * intros n D [E|[]]. injection E as _ <-. apply feed_d_none. exact Hok.
  - exists []. split.
    + apply does_nil. intros w Hw. unfold rule_execute, atom_exec, atom_outputs. cbn [r_outputs pure r_exec]. rewrite Ep, Ee. reflexivity.
    + apply covers_nil. intros n d P. inversion P; subst. match goal with H : shown _ _ |- _ => apply enabled_shown in H; congruence end.
Qed.
Lemma combine_nil_l {A C} (l : list C) : combine (@nil A) l = [].
Proof. reflexivity. Qed.
Lemma refines_atom_tags c answer : site_ok c -> exists l, does c (Rule (B "atom_tags") (pure (atom_tags_outputs stat)) (atom_tags_exec command)) l /\ covers c answer (B "atom_tags") l.
Proof.
  intro Hok. destruct (s_posts (c_st c)) as [posts|] eqn:Ep.
  2: { exists []. split; [apply does_nil; intros w Hw; unfold rule_execute, atom_tags_exec; cbn [r_outputs pure r_exec]; rewrite Ep; reflexivity|].
       apply covers_nil. intros n d P. inversion P; congruence. }
  destruct (s_tags (c_st c)) as [tags|] eqn:Et.
  2: { exists []. split; [apply does_nil; intros w Hw; unfold rule_execute, atom_tags_exec; cbn [r_outputs pure r_exec]; rewrite Ep, Et; reflexivity|].
       apply covers_nil. intros n d P. inversion P; congruence. }
  set (name := fun t => generate_filename (dir c) (look c (B "blog_prefix")) (look c (B "atom_prefix")) (Some t) (look c (B "atom_ext"))).
  destruct (posts_pagination_enabled c (B "atom_posts_per_page")) eqn:Ee.
  - exists (map (fun t => (name t, feed_d c)) tags). split.
    + intros w Hw. destruct (@with_vars _ _ c (feed_d c) name (build_atom command c) (feed_job c) w (fun v n => conj eq_refl eq_refl)
        (fun v n w' => feed_job_do c v n w w') tags (tag_vars (atom_vars c (B "atom_tags")) tags) (tag_vars_length _ _)) as (jobs & E1 & E2 & E3).
      exists jobs. split; [exact E1|]. unfold rule_execute, atom_tags_exec, atom_tags_outputs. cbn [r_outputs pure r_exec r_name]. rewrite Ep, Et, Ee. split; [apply E2|].
      intros j n Hj En. destruct (E3 j Hj) as (t & v & Hi & ->). cbn [j_run feed_job j_name] in *. pose proof (in_combine_l _ _ _ _ Hi) as Hit. apply (combine_forall2 (tag_vars_replaced tags (but_refl _ (atom_vars_means c _)))) in Hi.
      eapply R_atom_tag; [exact Et|exact Hit|exact En|apply the_order_vars|apply tag_feed; exact Hi].
    + apply enabled_shown in Ee. split; [|split].
      * intros n d P. inversion P as [ | |tags' t n' Hp Ht Hi Hs Hn E1 E2 E3| | | | | | ]; try discriminate. rewrite Et in Ht. injection Ht as <-. exists (feed_d c).
        split; [|apply feed_d_somes]. apply in_map_iff. exists t. split; [f_equal; exact Hn|exact Hi].
      * intros n D I. apply in_map_iff in I. destruct I as (t & E & I). injection E as E <-. rewrite feed_d_somes.
        apply P_atom_tag with (tags := tags) (t := t); [congruence|exact Et|exact I|exact Ee|exact E].
      * intros n D I. apply in_map_iff in I. destruct I as (t & E & I). injection E as _ <-. apply feed_d_none. exact Hok.
  - exists []. split.
    + apply does_nil. intros w Hw. unfold rule_execute, atom_tags_exec, atom_tags_outputs. cbn [r_outputs pure r_exec]. rewrite Ep, Et, Ee. reflexivity.
    + apply covers_nil. intros n d P. inversion P; subst. match goal with H : shown _ _ |- _ => apply enabled_shown in H; congruence end.
Qed.
Lemma refines_tags c answer : site_ok c -> exists l, does c (Rule (B "tags") (pure (tags_outputs stat)) (tags_exec command)) l /\ covers c answer (B "tags") l.
Proof.
  intro Hok. destruct (s_posts (c_st c)) as [posts|] eqn:Ep.
  2: { exists []. split; [apply does_nil; intros w Hw; unfold rule_execute, tags_exec; cbn [r_outputs pure r_exec]; rewrite Ep; reflexivity|].
       apply covers_nil. intros n d P. inversion P; congruence. }
  destruct (s_tags (c_st c)) as [tags|] eqn:Et.
  2: { exists []. split; [apply does_nil; intros w Hw; unfold rule_execute, tags_exec; cbn [r_outputs pure r_exec]; rewrite Ep, Et; reflexivity|].
       apply covers_nil. intros n d P. inversion P; congruence. }
  set (name := fun t => generate_filename (dir c) (look c (B "blog_prefix")) (look c (B "tag_prefix")) (Some t) (look c (B "html_ext"))).
  destruct (posts_pagination_enabled c (B "posts_per_page")) eqn:Ee.
  - exists (map (fun t => (name t, listing_d c)) tags). split.
    + intros w Hw. destruct (@with_vars _ _ c (listing_d c) name (build_listing command c) (listing_job c) w (fun v n => conj eq_refl eq_refl)
        (fun v n w' => listing_job_do c v n w w') tags (tag_vars (list_vars c (B "tags")) tags) (tag_vars_length _ _)) as (jobs & E1 & E2 & E3).
      exists jobs. split; [exact E1|]. unfold rule_execute, tags_exec, tags_outputs. cbn [r_outputs pure r_exec r_name]. rewrite Ep, Et, Ee. split; [apply E2|].
      intros j n Hj En. destruct (E3 j Hj) as (t & v & Hi & ->). cbn [j_run listing_job j_name] in *. pose proof (in_combine_l _ _ _ _ Hi) as Hit. apply (combine_forall2 (tag_vars_replaced tags (but_refl _ (list_vars_means c _)))) in Hi.
      eapply R_tag; [exact Et|exact Hit|exact En|apply the_order_vars|apply tag_listing; exact Hi].
    + apply enabled_shown in Ee. split; [|split].
      * intros n d P. inversion P as [ | | | | | |tags' t n' Hp Ht Hi Hs Hn E1 E2 E3| | ]; try discriminate. rewrite Et in Ht. injection Ht as <-. exists (listing_d c).
        split; [|apply listing_d_somes]. apply in_map_iff. exists t. split; [f_equal; exact Hn|exact Hi].
      * intros n D I. apply in_map_iff in I. destruct I as (t & E & I). injection E as E <-. rewrite listing_d_somes.
        apply P_tag with (tags := tags) (t := t); [congruence|exact Et|exact I|exact Ee|exact E].
      * intros n D I. apply in_map_iff in I. destruct I as (t & E & I). injection E as _ <-. apply listing_d_none. exact Hok.
  - exists []. split.
    + apply does_nil. intros w Hw. unfold rule_execute, tags_exec, tags_outputs. cbn [r_outputs pure r_exec]. rewrite Ep, Et, Ee. reflexivity.
    + apply covers_nil. intros n d P. inversion P; subst; try discriminate. match goal with H : shown _ _ |- _ => apply enabled_shown in H; congruence end.
Qed.

(* ---- pages ---- *)
Lemma page_seq l k : (0 <= fst (strtol l))%Z -> (In k (seq 1 (Z.to_nat (fst (strtol l)))) <-> (1 <= Z.of_nat k <= fst (strtol l))%Z).
Proof. intro H. rewrite in_seq. lia. Qed.
Lemma refines_pagination c answer : site_ok c -> answers c answer ->
  exists l, does c (Rule (B "pagination") (pagination_outputs stat command) (pagination_exec command)) l /\ covers c answer (B "pagination") l.
Proof.
  intros Hok (A1 & _ & A3). destruct (s_posts (c_st c)) as [posts|] eqn:Ep.
  2: { exists []. split; [apply does_nil; intros w Hw; unfold rule_execute, pagination_exec, pagination_outputs; cbn [r_outputs pure r_exec]; rewrite Ep; reflexivity|].
       apply covers_nil. intros n d P. inversion P; congruence. }
  set (name := fun k => generate_filename (dir c) (look c (B "blog_prefix")) (look c (B "pagination_prefix")) (Some (digits k)) (look c (B "html_ext"))).
  destruct (posts_pagination_enabled c (B "posts_per_page")) eqn:Ee.
  2: { exists []. split.
    + apply does_nil. intros w Hw. unfold rule_execute, pagination_exec, pagination_outputs. cbn [r_outputs pure r_exec]. rewrite Ep, Ee. reflexivity.
    + apply covers_nil. intros n d P. inversion P; subst; try discriminate. match goal with H : shown _ _ |- _ => apply enabled_shown in H; congruence end. }
  destruct (answer None) as [l|] eqn:Ea.
  2: { exists []. split.
    + apply does_nil. intros w Hw. unfold rule_execute, pagination_exec, pagination_outputs. cbn [r_outputs pure r_exec]. rewrite Ep, Ee, A1 by exact Hw. reflexivity.
    + apply covers_nil. intros n d P. inversion P as [ | | |k n' Hp Hs (s & Hk & _) Hn E1 E2 E3| | | | | ]; try discriminate. congruence. }
  pose proof (A3 _ _ Ea) as Hz. set (ns := seq 1 (Z.to_nat (fst (strtol l)))).
  exists (map (fun t => (name t, listing_d c)) ns). split.
  + intros w Hw. destruct (@with_vars _ _ c (listing_d c) name (build_listing command c) (listing_job c) w (fun v n => conj eq_refl eq_refl)
      (fun v n w' => listing_job_do c v n w w') ns (numbered_vars (pagination_vars c (B "pagination")) 1 (length ns)) (numbered_length _ _ _)) as (jobs & E1 & E2 & E3).
    exists jobs. split; [exact E1|]. unfold rule_execute, pagination_exec, pagination_outputs. cbn [r_outputs pure r_exec]. rewrite Ep, Ee, A1 by exact Hw.
    cbn [rbind]. rewrite ?Ea. unfold page_numbers. cbn [rbind]. rewrite (proj2 (Z.ltb_ge _ _) Hz). cbn [rbind]. rewrite map_length. fold ns. split; [apply E2|].
    intros j n Hj En. destruct (E3 j Hj) as (k & v & Hi & ->). cbn [j_run listing_job j_name] in *. unfold ns in Hi at 2. rewrite seq_length in Hi.
    apply (combine_forall2 (numbered_replaced _ _ (but_refl _ (pagination_vars_means c _)))) in Hi. eapply R_pagination; [exact En|apply the_order_vars|apply numbered_page; exact Hi].
  + apply enabled_shown in Ee. split; [|split].
    * intros n d P. inversion P as [ | | |k n' Hp Hs (s & Hk & Hr) Hn E1 E2 E3| | | | | ]; try discriminate. exists (listing_d c).
      split; [|apply listing_d_somes]. apply in_map_iff. exists k. split; [f_equal; exact Hn|]. rewrite Ea in Hk. injection Hk as <-. apply page_seq; assumption.
    * intros n D I. apply in_map_iff in I. destruct I as (k & E & I). injection E as E <-. rewrite listing_d_somes.
      apply P_pagination with (k := k); [congruence|exact Ee| |exact E]. exists l. split; [exact Ea|]. apply page_seq in I; assumption.
    * intros n D I. apply in_map_iff in I. destruct I as (t & E & I). injection E as _ <-. apply listing_d_none. exact Hok.
Qed.
(* the pages of the tags *)
Definition page_list (answer : option bytes -> option bytes) (t : bytes) : list nat :=
  match answer (Some t) with Some l => seq 1 (Z.to_nat (fst (strtol l))) | None => [] end.
Definition tag_names (c : ctx) (answer : option bytes -> option bytes) (tags : list bytes) : list (option bytes) :=
  flat_map (fun t => map (tag_page c t) (page_list answer t)) tags.
Lemma tag_pages_out c answer all : answers c answer -> s_tags (c_st c) = Some all -> forall tags w, good w -> incl tags all ->
  tag_pages stat command c (posts_pagination c trie_new (B "posts_per_page")) tags w = (w, Ok (map (out c w) (tag_names c answer tags))).
Proof.
  intros (_ & A2 & A3) Ht. induction tags as [|t r IH]; intros w Hw Hi; [reflexivity|]. cbn [tag_pages].
  rewrite (A2 all t w Hw Ht (Hi t (or_introl eq_refl))), (IH w Hw (fun x Hx => Hi x (or_intror Hx))).
  unfold tag_names. cbn [flat_map]. rewrite map_app. fold (tag_names c answer r). unfold page_list. destruct (answer (Some t)) as [l|] eqn:Ea.
  - unfold page_numbers. rewrite (proj2 (Z.ltb_ge _ _) (A3 _ _ Ea)). cbn [rbind]. rewrite map_map. reflexivity.
  - reflexivity.
Qed.
Lemma out_short c w n o : out c w (Some n) = Some o -> f_short o = n.
Proof. unfold Rules.out, filectx_new. intro E. injection E as <-. destruct (stat w _); reflexivity. Qed.
Lemma out_some c w n : exists o, out c w (Some n) = Some o.
Proof. eexists. reflexivity. Qed.
Lemma tag_turns c tags count w0 base : forall names vars, but [B "FILTER_TAG"; B "FILTER_PAGE"] base vars -> (forall s, In (Some s) names -> find_tag c s count tags <> None) ->
  exists jobs, map (fun j => (j_name j, j_deps j)) jobs = map (fun n => (n, listing_d c)) names /\
    (forall w, run_all (fun ov w => match snd ov with Some v => build_listing command c v (fst ov) w | None => (w, Ok 0) end)
                (combine (map (out c w0) names) (tag_page_vars c tags count vars (map (out c w0) names))) w
              = run_all (do_job c w0) jobs w)
    /\ forall j n, In j jobs -> j_name j = Some n -> exists t k v, find_tag c n count tags = Some (t, k) /\ but [B "FILTER_TAG"; B "FILTER_PAGE"] base v
         /\ j = listing_job c (trie_insert (trie_insert v (B "FILTER_TAG") t) (B "FILTER_PAGE") (digits k)) (Some n).
Proof.
  induction names as [|n names IH]; intros vars Hb H; [exists []; split; [reflexivity|split; [reflexivity|intros j n []]]|].
  assert (H' : forall s, In (Some s) names -> find_tag c s count tags <> None) by (intros s Hs; apply H; right; exact Hs).
  destruct n as [n|].
  - destruct (out_some c w0 n) as (o & Eo). pose proof (out_short Eo) as Es. destruct (find_tag c n count tags) as [[t k]|] eqn:Ef; [|destruct (H n (or_introl eq_refl) Ef)].
    destruct (IH (trie_insert (trie_insert vars (B "FILTER_TAG") t) (B "FILTER_PAGE") (digits k))) as (jobs & E1 & E2 & E3); [|exact H'|].
    { apply but_insert; [apply nul_free; reflexivity|right; left; reflexivity|]. apply but_insert; [apply nul_free; reflexivity|left; reflexivity|exact Hb]. }
    exists (listing_job c (trie_insert (trie_insert vars (B "FILTER_TAG") t) (B "FILTER_PAGE") (digits k)) (Some n) :: jobs).
    split; [cbn [map]; rewrite E1; reflexivity|]. split; [|intros j n' [<-|Hj] En; [injection En as <-; exists t, k, vars; auto|apply E3; assumption]].
    intro w. cbn [map]. rewrite Eo. cbn [tag_page_vars]. rewrite Es, Ef. cbn [combine run_all fst snd].
    rewrite <- Eo, listing_job_do. destruct (do_job c w0 _ w) as [w1 [[|x]| |]]; [apply E2| | |]; reflexivity.
  - destruct (IH vars Hb H') as (jobs & E1 & E2 & E3). exists (listing_job c vars None :: jobs). split; [cbn [map]; rewrite E1; reflexivity|].
    split; [|intros j n' [<-|Hj] En; [discriminate|apply E3; assumption]].
    intro w. cbn [map]. change (out c w0 None) with (@None fctx). cbn [tag_page_vars combine run_all fst snd]. unfold do_job at 1.
    cbn [j_name listing_job]. change (out c w0 None) with (@None fctx). cbn [run_all]. apply E2.
Qed.
Lemma find_tag_some c short count tags t k : In t tags -> In k (seq 1 count) -> tag_page c t k = Some short -> find_tag c short count tags <> None.
Proof.
  induction tags as [|x r IH]; intros Ht Hk E; [destruct Ht|]. cbn [find_tag]. destruct (find_page c short x count) eqn:Ef; [discriminate|].
  destruct Ht as [->|Ht]; [|apply IH; assumption]. exfalso. unfold find_page in Ef. pose proof (find_none _ _ Ef k Hk) as F. cbn beta in F.
  rewrite E, beq_refl in F. discriminate.
Qed.
Lemma find_tag_names c short count tags t k : find_tag c short count tags = Some (t, k) -> In t tags /\ tag_page c t k = Some short.
Proof.
  induction tags as [|x r IH]; cbn [find_tag]; intro E; [discriminate|]. destruct (find_page c short x count) eqn:Ef; [|destruct (IH E); split; [right|]; assumption].
  injection E as -> ->. split; [left; reflexivity|]. unfold find_page in Ef. apply find_some in Ef. destruct Ef as [_ Ef]. destruct (tag_page c t k) as [f|]; [|discriminate].
  apply beq_eq in Ef. congruence.
Qed.
Lemma tag_names_found c answer tags : forall s, In (Some s) (tag_names c answer tags) -> find_tag c s (length (tag_names c answer tags)) tags <> None.
Proof.
  intros s Hs. unfold tag_names in Hs. apply in_flat_map in Hs. destruct Hs as (t & Ht & Hs). apply in_map_iff in Hs. destruct Hs as (k & Ek & Hk).
  apply find_tag_some with (t := t) (k := k); [exact Ht| |exact Ek].
  assert (L : length (page_list answer t) <= length (tag_names c answer tags)).
  { clear - Ht. unfold tag_names. induction tags as [|x r IH]; [destruct Ht|]. cbn [flat_map]. rewrite app_length, map_length.
    destruct Ht as [->|Ht]; [lia|]. apply IH in Ht. lia. }
  unfold page_list in *. destruct (answer (Some t)); [|destruct Hk]. rewrite seq_length in L. apply in_seq in Hk. apply in_seq. lia.
Qed.
Lemma refines_pagination_tags c answer : site_ok c -> answers c answer ->
  exists l, does c (Rule (B "pagination_tags") (pagination_tags_outputs stat command) (pagination_tags_exec command)) l /\ covers c answer (B "pagination_tags") l.
Proof.
  intros Hok A. pose proof A as (_ & _ & A3). destruct (s_posts (c_st c)) as [posts|] eqn:Ep.
  2: { exists []. split; [apply does_nil; intros w Hw; unfold rule_execute, pagination_tags_exec, pagination_tags_outputs; cbn [r_outputs pure r_exec]; rewrite Ep; reflexivity|].
       apply covers_nil. intros n d P. inversion P; congruence. }
  destruct (s_tags (c_st c)) as [tags|] eqn:Et.
  2: { exists []. split; [apply does_nil; intros w Hw; unfold rule_execute, pagination_tags_exec, pagination_tags_outputs; cbn [r_outputs pure r_exec]; rewrite Ep, Et; reflexivity|].
       apply covers_nil. intros n d P. inversion P; congruence. }
  destruct (posts_pagination_enabled c (B "posts_per_page")) eqn:Ee.
  2: { exists []. split.
    + apply does_nil. intros w Hw. unfold rule_execute, pagination_tags_exec, pagination_tags_outputs. cbn [r_outputs pure r_exec]. rewrite Ep, Et, Ee. reflexivity.
    + apply covers_nil. intros n d P. inversion P; subst; try discriminate. match goal with H : shown _ _ |- _ => apply enabled_shown in H; congruence end. }
  exists (map (fun n => (n, listing_d c)) (tag_names c answer tags)). split.
  + intros w Hw. destruct (@tag_turns c tags (length (tag_names c answer tags)) w (pagination_vars c (B "pagination_tags")) (tag_names c answer tags) (pagination_vars c (B "pagination_tags"))
                         (but_refl _ (pagination_vars_means c _)) (@tag_names_found c answer tags)) as (jobs & E1 & E2 & E3).
    exists jobs. split; [exact E1|]. unfold rule_execute, pagination_tags_exec, pagination_tags_outputs. cbn [r_outputs pure r_exec].
    rewrite Ep, Et, Ee, (tag_pages_out A Et Hw (incl_refl _)). rewrite map_length. split; [apply E2|].
    intros j n Hj En. destruct (E3 j n Hj En) as (t & k & v & Ef & Hb & ->). cbn [j_run listing_job r_name].
    destruct (find_tag_names Ef) as [X1 X2]. eapply R_pagination_tag; [exact Et|exact X1|exact X2|apply the_order_vars|apply numbered_tag; exact Hb].
  + apply enabled_shown in Ee. split; [|split].
    * intros n d P. inversion P as [ | | | |tags' t k n' Hp Ht Hi Hs (s & Hk & Hr) Hn E1 E2 E3| | | | ]; try discriminate. rewrite Et in Ht. injection Ht as <-.
      exists (listing_d c). split; [|apply listing_d_somes]. apply in_map_iff. exists (Some n). split; [reflexivity|].
      apply in_flat_map. exists t. split; [exact Hi|]. apply in_map_iff. exists k. split; [exact Hn|]. unfold page_list. rewrite Hk.
      apply page_seq; [eapply A3; exact Hk|exact Hr].
    * intros n D I. apply in_map_iff in I. destruct I as (x & E & I). injection E as -> <-. rewrite listing_d_somes.
      apply in_flat_map in I. destruct I as (t & Ht & I). apply in_map_iff in I. destruct I as (k & En & Hk). unfold page_list in Hk.
      destruct (answer (Some t)) as [l|] eqn:Ea; [|destruct Hk].
      apply P_pagination_tag with (tags := tags) (t := t) (k := k); [congruence|exact Et|exact Ht|exact Ee| |exact En].
      exists l. split; [exact Ea|]. apply page_seq in Hk; [exact Hk|eapply A3; exact Ea].
    * intros n D I. apply in_map_iff in I. destruct I as (t & E & I). injection E as _ <-. apply listing_d_none. exact Hok.
Qed.

(* ---- posts, pages and copies ---- *)
Lemma one_turns c vars (name : bytes -> option bytes) w0 : forall l ps, ~ In None l -> length ps = length l ->
  exists jobs, map (fun j => (j_name j, j_deps j)) jobs = map (fun pf => (name (fst pf), one_d c (snd pf))) (combine ps l) /\
    (forall w, run_all (build_one command c vars) (combine (tails l) (map (fun p => out c w0 (name p)) ps)) w = run_all (do_job c w0) jobs w)
    /\ forall j, In j jobs -> exists i p f, nth_error ps i = Some p /\ nth_error l i = Some (Some f) /\ j = one_job c vars (skipn i l) f (name p).
Proof.
  induction l as [|f l IH]; intros [|p ps] Hn Hl; try discriminate; [exists []; split; [reflexivity|split; [reflexivity|intros j []]]|].
  destruct f as [f|]; [|exfalso; apply Hn; left; reflexivity]. destruct (IH ps) as (jobs & E1 & E2 & E3); [intro; apply Hn; right; assumption|injection Hl as Hl; exact Hl|].
  exists (one_job c vars (Some f :: l) f (name p) :: jobs). split; [cbn [map combine fst snd]; rewrite E1; reflexivity|].
  split; [|intros j [<-|Hj]; [exists 0, p, f; auto|destruct (E3 j Hj) as (i & p' & f' & X1 & X2 & X3); exists (S i), p', f'; auto]].
  intro w. cbn [tails map combine run_all]. rewrite one_job_do. destruct (do_job c w0 _ w) as [w1 [[|x]| |]]; [apply E2| | |]; reflexivity.
Qed.
Lemma combine_nth {A C} (l : list A) (l' : list C) a b : In (a, b) (combine l l') <-> exists i, nth_error l i = Some a /\ nth_error l' i = Some b.
Proof.
  revert l'. induction l as [|x l IH]; intro l'; [split; [intros []|intros ([|i] & E & _); discriminate]|].
  destruct l' as [|y l']; [split; [intros []|intros ([|i] & _ & E); discriminate]|]. cbn [combine In]. rewrite IH. split.
  - intros [E|(i & E1 & E2)]; [exists 0; injection E as <- <-; auto|exists (S i); auto].
  - intros ([|i] & E1 & E2); [left; cbn in E1, E2; congruence|right; exists i; auto].
Qed.
Lemma one_d_none c f : ~ In None (one_d c (Some f)).
Proof. intros [E|[E|[E|[]]]]; discriminate. Qed.
Lemma refines_posts c answer : site_ok c -> exists l, does c (Rule (B "posts") (pure (posts_outputs stat)) (posts_exec command)) l /\ covers c answer (B "posts") l.
Proof.
  intros Hok. destruct Hok as (_ & Hn & _ & Hl & _). destruct (s_posts (c_st c)) as [posts|] eqn:Ep.
  2: { exists []. split; [apply does_nil; intros w Hw; unfold rule_execute, posts_exec; cbn [r_outputs pure r_exec]; rewrite Ep; reflexivity|].
       apply covers_nil. intros n d P. inversion P; congruence. }
  set (name := fun p => generate_filename (dir c) (look c (B "blog_prefix")) (look c (B "post_prefix")) (Some p) (look c (B "html_ext"))).
  specialize (Hl _ eq_refl).
  exists (map (fun pf => (name (fst pf), one_d c (snd pf))) (combine posts (c_posts c))). split.
  - intros w Hw. destruct (@one_turns c (posts_vars c) name w (c_posts c) posts Hn Hl) as (jobs & E1 & E2 & E3). exists jobs. split; [exact E1|].
    unfold rule_execute, posts_exec, posts_outputs. cbn [r_outputs pure r_exec r_name]. rewrite Ep. split; [apply E2|].
    intros j n Hj En. destruct (E3 j Hj) as (i & p & f & X1 & X2 & ->). cbn [j_run one_job].
    eapply R_post; [exact Ep|exact X1|exact X2|exact En|apply the_order_vars|apply posts_vars_means|apply slug_means].
  - split; [|split].
    + intros n d P. inversion P as [ | | | | |ps i p f n' Hp H1 H2 Hx E1 E2 E3| | | ]; try discriminate. rewrite Ep in Hp. injection Hp as <-.
      exists (one_d c (Some f)). split; [|reflexivity]. apply in_map_iff. exists (p, Some f). split; [cbn [fst snd]; f_equal; exact Hx|].
      apply combine_nth. exists i. auto.
    + intros n D I. apply in_map_iff in I. destruct I as ((p, f) & E & I). injection E as E <-. apply combine_nth in I. destruct I as (i & H1 & H2).
      destruct f as [f|]; [|exfalso; apply Hn; eapply nth_error_In; exact H2]. apply P_post with (posts := posts) (i := i) (p := p); assumption.
    + intros n D I. apply in_map_iff in I. destruct I as ((p, f) & E & I). injection E as _ <-. apply in_combine_r in I.
      destruct f as [f|]; [apply one_d_none|contradiction].
Qed.
Lemma refines_pages c answer : site_ok c -> exists l, does c (Rule (B "pages") (pure (pages_outputs stat)) (pages_exec command)) l /\ covers c answer (B "pages") l.
Proof.
  intros Hok. destruct Hok as (_ & _ & Hn & _ & Hl). destruct (s_pages (c_st c)) as [pages|] eqn:Ep.
  2: { exists []. split; [apply does_nil; intros w Hw; unfold rule_execute, pages_exec; cbn [r_outputs pure r_exec]; rewrite Ep; reflexivity|].
       apply covers_nil. intros n d P. inversion P; congruence. }
  set (name := fun p => generate_filename (dir c) None None (Some p) (look c (B "html_ext"))).
  specialize (Hl _ eq_refl).
  exists (map (fun pf => (name (fst pf), one_d c (snd pf))) (combine pages (c_pages c))). split.
  - intros w Hw. destruct (@one_turns c (pages_vars c) name w (c_pages c) pages Hn Hl) as (jobs & E1 & E2 & E3). exists jobs. split; [exact E1|].
    unfold rule_execute, pages_exec, pages_outputs. cbn [r_outputs pure r_exec r_name]. rewrite Ep. split; [apply E2|].
    intros j n Hj En. destruct (E3 j Hj) as (i & p & f & X1 & X2 & ->). cbn [j_run one_job].
    eapply R_page; [exact Ep|exact X1|exact X2|exact En|apply pages_vars_means|apply slug_means].
  - split; [|split].
    + intros n d P. inversion P as [ | | | | | | |ps i p f n' Hp H1 H2 Hx E1 E2 E3| ]; try discriminate. rewrite Ep in Hp. injection Hp as <-.
      exists (one_d c (Some f)). split; [|reflexivity]. apply in_map_iff. exists (p, Some f). split; [cbn [fst snd]; f_equal; exact Hx|].
      apply combine_nth. exists i. auto.
    + intros n D I. apply in_map_iff in I. destruct I as ((p, f) & E & I). injection E as E <-. apply combine_nth in I. destruct I as (i & H1 & H2).
      destruct f as [f|]; [|exfalso; apply Hn; eapply nth_error_In; exact H2]. apply P_page with (pages := pages) (i := i) (p := p); assumption.
    + intros n D I. apply in_map_iff in I. destruct I as ((p, f) & E & I). injection E as _ <-. apply in_combine_r in I.
      destruct f as [f|]; [apply one_d_none|contradiction].
Qed.
Lemma refines_copy c answer : exists l, does c (Rule (B "copy") (pure (copy_outputs stat)) (copy_exec cp)) l /\ covers c answer (B "copy") l.
Proof.
  destruct (s_copy (c_st c)) as [copy|] eqn:Ep.
  2: { exists []. split; [apply does_nil; intros w Hw; unfold rule_execute, copy_exec; cbn [r_outputs pure r_exec]; rewrite Ep; reflexivity|].
       apply covers_nil. intros n d P. inversion P; congruence. }
  exists (map (fun f => (Some (c_short_output c ++ B "/" ++ f_short f), copy_d c f)) (c_copy c)). split.
  - intros w Hw. exists (map (fun f => Job (Some (c_short_output c ++ B "/" ++ f_short f)) (copy_d c f) (JCopy f)) (c_copy c)).
    split; [rewrite map_map; reflexivity|]. unfold rule_execute, copy_exec, copy_outputs. cbn [r_outputs pure r_exec r_name]. rewrite Ep. split.
    + apply run_all_ext. induction (c_copy c) as [|f l IH]; [constructor|]. cbn [map combine]. constructor; [intro w'; apply copy_job_do|exact IH].
    + intros j n Hj En. apply in_map_iff in Hj. destruct Hj as (f & <- & Hf). cbn [j_name j_run] in *. injection En as <-. apply R_copy. exact Hf.
  - split; [|split].
    + intros n d P. inversion P as [ | | | | | | | |f Hp Hf E1 E2 E3]; try discriminate. exists (copy_d c f). split; [|reflexivity].
      apply in_map_iff. exists f. split; [reflexivity|exact Hf].
    + intros n D I. apply in_map_iff in I. destruct I as (f & E & I). injection E as <- <-. apply (@P_copy c answer f); [congruence|exact I].
    + intros n D I. apply in_map_iff in I. destruct I as (f & E & I). injection E as _ <-. intros [X|[X|[]]]; discriminate.
Qed.
Lemma refines c answer r : site_ok c -> answers c answer -> In r (build_rules stat command cp) -> exists l, does c r l /\ covers c answer (r_name r) l.
Proof.
  intros Hok A Hr. unfold build_rules in Hr.
  destruct Hr as [<-|[<-|[<-|[<-|[<-|[<-|[<-|[<-|[<-|[]]]]]]]]]]; cbn [r_name].
  - apply refines_index; assumption.
  - apply refines_atom; assumption.
  - apply refines_atom_tags; assumption.
  - apply refines_pagination; assumption.
  - apply refines_pagination_tags; assumption.
  - apply refines_posts; assumption.
  - apply refines_tags; assumption.
  - apply refines_pages; assumption.
  - apply refines_copy.
Qed.

(* ---- what the tools are expected to do ---- *)
(* the commands run for the files of the site, each with the variables, template and
   sources of its recipe, and what goes to their standard input *)
Inductive intended (c : ctx) (answer : option bytes -> option bytes) : bytes -> bytes -> Prop :=
| Intended rule n d gv lv listing entry template sources first p :
    product c answer rule n d -> recipe c rule n (JBlogc gv lv listing entry template sources first) ->
    paths (if first then firstn 1 sources else sources) = Ok p ->
    intended c answer (fst (exec_blogc (c_exec c) gv lv listing (match entry with Some e => Some (f_path e) | None => None end) (f_path template) (absolute c n) p first))
      (snd (exec_blogc (c_exec c) gv lv listing (match entry with Some e => Some (f_path e) | None => None end) (f_path template) (absolute c n) p first)).
(* one of the things to do to build the site: make the file n this way *)
Definition makes (c : ctx) (answer : option bytes -> option bytes) (n : bytes) (r : jrun) : Prop :=
  exists rule d, product c answer rule n d /\ recipe c rule n r.
(* The commands and the copying done for the site do not leave the good worlds. *)
Record steady (c : ctx) (answer : option bytes -> option bytes) : Prop := Steady
  { sd_command : forall w cmd input, good w -> intended c answer cmd input -> good (fst (command w cmd input));
    sd_cp : forall n s o w, good w -> makes c answer n (JCopy s) -> f_path o = absolute c n -> good (fst (cp w s o)) }.
(* They make no file disappear or older, and after a success the output is there and not
   older than any of the inputs: the clock does not run backwards and the inputs are not
   changed meanwhile. *)
Record physical (c : ctx) (answer : option bytes -> option bytes) : Prop := Physical
  { ph_command : forall w cmd input, good w -> intended c answer cmd input -> later stat w (fst (command w cmd input));
    ph_cp : forall n s o w, good w -> makes c answer n (JCopy s) -> f_path o = absolute c n -> later stat w (fst (cp w s o));
    ph_blogc : forall n gv lv listing entry template o sources first w w', good w ->
      makes c answer n (JBlogc gv lv listing entry template sources first) -> f_path o = absolute c n ->
      run_blogc command c gv lv listing entry template o sources first w = (w', Ok 0) -> written stat c w' (f_path o);
    ph_copied : forall n s o w w', good w -> makes c answer n (JCopy s) -> f_path o = absolute c n -> cp w s o = (w', 0) -> written stat c w' (f_path o) }.

Lemma not_later_trans a b c : not_later a b -> not_later b c -> not_later a c.
Proof. unfold not_later. lia. Qed.
Lemma not_later_refl a : not_later a a.
Proof. unfold not_later. lia. Qed.
Lemma later_refl w : later stat w w.
Proof. intros p t H. exists t. split; [exact H|apply not_later_refl]. Qed.
Lemma later_trans w1 w2 w3 : later stat w1 w2 -> later stat w2 w3 -> later stat w1 w3.
Proof.
  intros H1 H2 p t H. destruct (H1 p t H) as (t1 & E1 & L1). destruct (H2 p t1 E1) as (t2 & E2 & L2). exists t2. split; [exact E2|].
  eapply not_later_trans; eassumption.
Qed.
Lemma up_later w w' p d : later stat w w' -> up_to_date stat w p d -> up_to_date stat w' p d.
Proof.
  intros H (t & E & F). destruct (H p t E) as (t' & E' & L). exists t'. split; [exact E'|]. intros f Hf. eapply not_later_trans; [apply F; exact Hf|exact L].
Qed.
Lemma out_path c w n o : out c w (Some n) = Some o ->
  f_path o = absolute c n /\ (if f_readable o then stat w (absolute c n) = Some (f_time o) else stat w (absolute c n) = None).
Proof.
  unfold Rules.out, filectx_new. intro E.
  assert (A : (if starts_slash n then n else c_root c ++ B "/" ++ n) = absolute c n).
  { unfold absolute, starts_slash. destruct n as [|x n]; [rewrite app_nil_r; reflexivity|]. destruct (x == "/"%char); reflexivity. }
  cbv zeta in E. rewrite A in E. destruct (stat w (absolute c n)) eqn:Es; injection E as <-; cbn [f_path f_readable f_time]; rewrite ?Es; split; reflexivity.
Qed.
Lemma perform_later c answer n r o w : steady c answer -> physical c answer -> good w -> makes c answer n r -> f_path o = absolute c n ->
  later stat w (fst (perform c r o w)) /\ good (fst (perform c r o w)).
Proof.
  intros K P Hw M Eo. destruct r as [gv lv listing entry template sources first|s]; cbn [perform].
  - unfold run_blogc. destruct (paths _) as [p| |] eqn:Ep; cbn [fst]; [|split; [apply later_refl|exact Hw]..].
    destruct M as (rule & d & M1 & M2). pose proof (Intended M1 M2 Ep) as Hint. rewrite <- Eo in Hint. destruct (exec_blogc _ _ _ _ _ _ _ _ _) as [cmd input]. cbn [fst snd] in Hint.
    pose proof (@ph_command c answer P w cmd input Hw Hint) as H. pose proof (@sd_command c answer K w cmd input Hw Hint) as H'. destruct (command w cmd input). auto.
  - pose proof (@ph_cp c answer P n s o w Hw M Eo) as H. pose proof (@sd_cp c answer K n s o w Hw M Eo) as H'. destruct (cp w s o). auto.
Qed.
Lemma perform_written c answer n r o w w' : physical c answer -> good w -> makes c answer n r -> f_path o = absolute c n -> perform c r o w = (w', Ok 0) -> written stat c w' (f_path o).
Proof.
  intros P Hw M Eo H. destruct r as [gv lv listing entry template sources first|s]; cbn [perform] in H.
  - eapply (ph_blogc P); eassumption.
  - destruct (cp w s o) as [w1 rv] eqn:E. injection H as -> ->. eapply (ph_copied P); eassumption.
Qed.

(* one job *)
Lemma job_done c answer w0 w w' j : steady c answer -> physical c answer -> (forall n, j_name j = Some n -> makes c answer n (j_run j)) ->
  (forall f, In (Some f) (j_deps j) -> In f (inputs c)) -> good w -> later stat w0 w ->
  do_job c w0 j w = (w', Ok 0) ->
  later stat w w' /\ good w' /\ forall n, j_name j = Some n -> up_to_date stat w' (absolute c n) (somes (j_deps j)).
Proof.
  intros K P Hm Hd Hw Hl H. unfold do_job in H. destruct (j_name j) as [n|]; [|inv H; split; [apply later_refl|split; [exact Hw|intros; discriminate]]].
  specialize (Hm n eq_refl). destruct (out_some c w0 n) as (o & Eo). rewrite Eo in H. destruct (out_path Eo) as [Ep Er].
  destruct (if negb (f_readable o) then true else _) eqn:Eg.
  - pose proof (perform_later K P Hw Hm Ep) as [L G]. rewrite H in L, G. split; [exact L|]. split; [exact G|]. intros n' E. injection E as <-.
    destruct (perform_written P Hw Hm Ep H) as (t & Et & F). rewrite Ep in Et. exists t. split; [exact Et|]. intros f Hf. apply F. apply Hd. apply somes_in. exact Hf.
  - inv H. split; [apply later_refl|]. split; [exact Hw|]. intros n' E. injection E as <-. destruct (f_readable o); [|discriminate].
    apply (up_later Hl). exists (f_time o). split; [exact Er|]. intros f Hf. apply somes_in in Hf.
    cbn [negb] in Eg. rewrite existsb_false in Eg. apply Eg in Hf. apply stale_spec in Hf. destruct Hf as (g & E & _ & L). injection E as <-. exact L.
Qed.
Lemma jobs_done c answer w0 jobs : steady c answer -> physical c answer -> (forall j n, In j jobs -> j_name j = Some n -> makes c answer n (j_run j)) ->
  (forall j, In j jobs -> forall f, In (Some f) (j_deps j) -> In f (inputs c)) ->
  forall w w', good w -> later stat w0 w -> run_all (do_job c w0) jobs w = (w', Ok 0) ->
  later stat w w' /\ good w' /\ forall j n, In j jobs -> j_name j = Some n -> up_to_date stat w' (absolute c n) (somes (j_deps j)).
Proof.
  intros K P. induction jobs as [|j jobs IH]; intros Hm Hd w w' Hw Hl H; cbn [run_all] in H.
  - inv H. split; [apply later_refl|]. split; [exact Hw|]. intros j n [].
  - destruct (do_job c w0 j w) as [w1 x] eqn:Ej. destruct x as [[|x]| |]; try discriminate.
    destruct (job_done K P (fun n => Hm j n (or_introl eq_refl)) (Hd j (or_introl eq_refl)) Hw Hl Ej) as (L1 & G1 & U1).
    destruct (IH (fun j' n Hj => Hm j' n (or_intror Hj)) (fun j' Hj => Hd j' (or_intror Hj)) w1 w' G1 (later_trans Hl L1) H) as (L2 & G2 & U2).
    split; [eapply later_trans; eassumption|]. split; [exact G2|]. intros j' n [<-|Hj] En; [apply (up_later L2); apply U1; exact En|apply U2; assumption].
Qed.
Lemma in_turns (jobs : list job) l j : map (fun j => (j_name j, j_deps j)) jobs = l -> In j jobs -> In (j_name j, j_deps j) l.
Proof. intros <- H. apply in_map_iff. exists j. auto. Qed.
Lemma turns_in (jobs : list job) l n D : map (fun j => (j_name j, j_deps j)) jobs = l -> In (n, D) l -> exists j, In j jobs /\ j_name j = n /\ j_deps j = D.
Proof. intros <- H. apply in_map_iff in H. destruct H as (j & E & H). injection E as E1 E2. exists j. auto. Qed.

(* whatever a file depends on is an input *)
Lemma product_inputs c answer rule n d f : product c answer rule n d -> In f d -> In f (inputs c).
Proof.
  intros P Hf. unfold inputs.
  assert (L : In f (listing_deps c) -> In f (inputs c)).
  { unfold listing_deps, inputs. rewrite !in_app_iff. cbn [In]. tauto. }
  assert (F : In f (feed_deps c) -> In f (inputs c)).
  { unfold feed_deps, inputs. rewrite !in_app_iff. destruct (c_atom_tmp c); cbn [In]; tauto. }
  unfold inputs in L, F. destruct P; try (apply L; exact Hf); try (apply F; exact Hf).
  - destruct Hf as [<-|[<-|[<-|[]]]]; rewrite !in_app_iff; cbn [In]; [tauto|tauto|]. right. right. left. apply somes_in. eapply nth_error_In. eassumption.
  - destruct Hf as [<-|[<-|[<-|[]]]]; rewrite !in_app_iff; cbn [In]; [tauto|tauto|]. right. right. right. left. apply somes_in. eapply nth_error_In. eassumption.
  - destruct Hf as [<-|[<-|[]]]; rewrite !in_app_iff; cbn [In]; [tauto|]. right. right. right. right. assumption.
Qed.
(* a turn without a name has the inputs of the others; it does nothing *)
Lemma unnamed c w0 j w : j_name j = None -> do_job c w0 j w = (w, Ok 0).
Proof. intro E. unfold do_job. rewrite E. reflexivity. Qed.
Lemma named_only c w0 jobs : forall w, run_all (do_job c w0) jobs w = run_all (do_job c w0) (filter (fun j => match j_name j with Some _ => true | None => false end) jobs) w.
Proof.
  induction jobs as [|j jobs IH]; intro w; [reflexivity|]. cbn [filter run_all]. destruct (j_name j) eqn:E.
  - cbn [run_all]. destruct (do_job c w0 j w) as [w1 [[|x]| |]]; [apply IH| | |]; reflexivity.
  - rewrite unnamed by exact E. apply IH.
Qed.

(* If a rule succeeds, all its files are up to date. *)
Theorem C67_rule : forall c answer r w w', steady c answer -> physical c answer -> site_ok c -> answers c answer -> good w -> In r (build_rules stat command cp) ->
  rule_execute c r w = (w', Ok 0) ->
  later stat w w' /\ good w' /\ forall n d, product c answer (r_name r) n d -> up_to_date stat w' (absolute c n) d.
Proof.
  intros c answer r w w' K P Hok A Hw Hr H. destruct (refines Hok A Hr) as (l & Hd & Hc1 & Hc2 & _).
  destruct (Hd w Hw) as (jobs & E1 & E2 & E3). rewrite E2, named_only in H. apply (jobs_done (answer := answer)) in H; [|exact K|exact P| | |exact Hw|apply later_refl].
  - destruct H as (L & G & U). split; [exact L|]. split; [exact G|]. intros n d Hp. destruct (Hc1 n d Hp) as (D & HD & <-). destruct (turns_in E1 HD) as (j & Hj & En & <-).
    apply U; [|exact En]. apply filter_In. rewrite En. auto.
  - intros j n Hj En. apply filter_In in Hj. destruct Hj as [Hj _]. pose proof (in_turns E1 Hj) as I. rewrite En in I.
    exists (r_name r), (somes (j_deps j)). split; [apply Hc2; exact I|apply E3; assumption].
  - intros j Hj f Hf. apply filter_In in Hj. destruct Hj as [Hj Hs]. pose proof (in_turns E1 Hj) as I. destruct (j_name j) as [n|]; [|discriminate].
    eapply product_inputs; [apply Hc2; exact I|]. apply somes_in. exact Hf.
Qed.
(* If blogc-make all succeeds, every file of the site is there and up to date. *)
Theorem C67_up_to_date : forall c answer w w', steady c answer -> physical c answer -> site_ok c -> answers c answer -> good w ->
  all_exec stat command cp c w = (w', Ok 0) ->
  good w' /\ forall rule n d, product c answer rule n d -> up_to_date stat w' (absolute c n) d.
Proof.
  intros c answer w w' K P Hok A Hw H.
  assert (R : forall rs, incl rs (build_rules stat command cp) -> forall w w', good w -> run_all (rule_execute c) rs w = (w', Ok 0) ->
            later stat w w' /\ good w' /\ forall r n d, In r rs -> product c answer (r_name r) n d -> up_to_date stat w' (absolute c n) d).
  { clear - K P Hok A. induction rs as [|r rs IH]; intros Hi w w' Hw H; cbn [run_all] in H.
    - inv H. split; [apply later_refl|]. split; [exact Hw|]. intros r n d [].
    - destruct (rule_execute c r w) as [w1 x] eqn:Er. destruct x as [[|x]| |]; try discriminate.
      destruct (C67_rule K P Hok A Hw (Hi r (or_introl eq_refl)) Er) as (L1 & G1 & U1).
      destruct (IH (fun r' Hr => Hi r' (or_intror Hr)) w1 w' G1 H) as (L2 & G2 & U2).
      split; [eapply later_trans; eassumption|]. split; [exact G2|]. intros r' n d [<-|Hj] Hp; [apply (up_later L2); apply U1; exact Hp|eapply U2; eassumption]. }
  destruct (R _ (incl_refl _) w w' Hw H) as (_ & G & U). split; [exact G|]. intros rule n d Hp.
  assert (I : exists r, In r (build_rules stat command cp) /\ r_name r = rule).
  { assert (I : In rule (map (@r_name W) (build_rules stat command cp))) by (unfold build_rules; destruct Hp; cbn [map r_name In]; tauto).
    apply in_map_iff in I. destruct I as (r & E & Hr). exists r. auto. }
  destruct I as (r & Hr & <-). eapply U; eassumption.
Qed.

(* If every file is up to date, blogc-make all does nothing: it runs neither blogc, but
   for the number of pages, nor copies a file. *)
Theorem C66_nothing_to_do : forall c answer w, site_ok c -> answers c answer -> good w ->
  (forall rule n d, product c answer rule n d -> up_to_date stat w (absolute c n) d) ->
  all_exec stat command cp c w = (w, Ok 0).
Proof.
  intros c answer w Hok A Hw U.
  assert (R : forall r, In r (build_rules stat command cp) -> rule_execute c r w = (w, Ok 0)).
  { intros r Hr. destruct (refines Hok A Hr) as (l & Hd & _ & Hc2 & Hc3). destruct (Hd w Hw) as (jobs & E1 & E2 & _). rewrite E2.
    assert (J : forall j, In j jobs -> do_job c w j w = (w, Ok 0)).
    { intros j Hj. pose proof (in_turns E1 Hj) as I. unfold do_job. destruct (j_name j) as [n|]; [|reflexivity].
      destruct (out_some c w n) as (o & Eo). rewrite Eo. destruct (out_path Eo) as [Ep Er]. pose proof (Hc2 _ _ I) as Hp.
      destruct (U _ _ _ Hp) as (t & Et & F). rewrite Et in Er.
      destruct (f_readable o); [|discriminate]. injection Er as ->. cbn [negb].
      replace (existsb (stale o) (j_deps j)) with false; [reflexivity|]. symmetry. apply existsb_false. intros x Hx. apply stale_spec.
      destruct x as [f|]; [|destruct (Hc3 _ _ I Hx)]. exists f. split; [reflexivity|]. apply somes_in in Hx. split; [|apply F; exact Hx].
      destruct Hok as [Hr' _]. eapply (proj1 (Forall_forall _ _) Hr'). eapply product_inputs; [exact Hp|exact Hx]. }
    clear - J. induction jobs as [|j jobs IH]; [reflexivity|]. cbn [run_all]. rewrite (J j (or_introl eq_refl)). apply IH. intros j' Hj. apply J. right. exact Hj. }
  unfold all_exec. induction (build_rules stat command cp) as [|r rs IH]; [reflexivity|]. cbn [run_all]. rewrite (R r (or_introl eq_refl)).
  apply IH. intros r' Hr. apply R. right. exact Hr.
Qed.

(* A file that is up to date, for every rule that makes it, is left alone, whatever else
   is built and whether that succeeds or not. *)
Theorem C67_untouched : forall c answer w p, steady c answer -> site_ok c -> answers c answer -> good w ->
  (forall n gv lv listing entry template o sources first w, good w -> makes c answer n (JBlogc gv lv listing entry template sources first) -> f_path o = absolute c n ->
     p <> f_path o -> stat (fst (run_blogc command c gv lv listing entry template o sources first w)) p = stat w p) ->
  (forall n s o w, good w -> makes c answer n (JCopy s) -> f_path o = absolute c n -> p <> f_path o -> stat (fst (cp w s o)) p = stat w p) ->
  (forall rule n d, product c answer rule n d -> absolute c n = p -> up_to_date stat w p d) ->
  stat (fst (all_exec stat command cp c w)) p = stat w p.
Proof.
  intros c answer w p K Hok A Hg Hb Hcp U. unfold all_exec.
  assert (R : forall r w1, In r (build_rules stat command cp) -> good w1 /\ stat w1 p = stat w p ->
            good (fst (rule_execute c r w1)) /\ stat (fst (rule_execute c r w1)) p = stat w p).
  { intros r w1 Hr [Hg1 Hw]. destruct (refines Hok A Hr) as (l & Hd & _ & Hc2 & Hc3). destruct (Hd w1 Hg1) as (jobs & E1 & E2 & E3). rewrite E2.
    assert (J : forall j w2, In j jobs -> good w2 /\ stat w2 p = stat w p -> good (fst (do_job c w1 j w2)) /\ stat (fst (do_job c w1 j w2)) p = stat w p).
    { intros j w2 Hj Hw2. pose proof (in_turns E1 Hj) as I. unfold do_job. destruct (j_name j) as [n|] eqn:En; [|exact Hw2].
      destruct (out_some c w1 n) as (o & Eo). rewrite Eo. destruct (out_path Eo) as [Ep Er]. pose proof (Hc2 _ _ I) as Hp.
      destruct (bytes_dec (absolute c n) p) as [E|N].
      - destruct (U _ _ _ Hp E) as (t & Et & F). rewrite <- Hw, <- E in Et. rewrite Et in Er.
        destruct (f_readable o); [|discriminate]. injection Er as ->. cbn [negb].
        replace (existsb (stale o) (j_deps j)) with false; [exact Hw2|]. symmetry. apply existsb_false. intros x Hx. apply stale_spec.
        destruct x as [f|]; [|destruct (Hc3 _ _ I Hx)]. exists f. split; [reflexivity|]. apply somes_in in Hx. split; [|apply F; exact Hx].
        destruct Hok as [Hr' _]. eapply (proj1 (Forall_forall _ _) Hr'). eapply product_inputs; [exact Hp|exact Hx].
      - assert (N' : p <> f_path o) by (rewrite Ep; intros ->; apply N; reflexivity).
        assert (M : makes c answer n (j_run j)) by (exists (r_name r), (somes (j_deps j)); split; [exact Hp|apply E3; assumption]). destruct Hw2 as [Hg2 Hw2].
        destruct (if negb (f_readable o) then true else _); [|auto]. rewrite <- Hw2. destruct (j_run j) as [gv lv listing entry template sources first|s]; cbn [perform].
        + split; [|eapply Hb; eassumption]. unfold run_blogc. destruct (paths _) as [q| |] eqn:Eq; cbn [fst]; [|exact Hg2|exact Hg2].
          destruct M as (rule & d & M1 & M2). pose proof (Intended M1 M2 Eq) as Hint. rewrite <- Ep in Hint. destruct (exec_blogc _ _ _ _ _ _ _ _ _) as [cmd input]. cbn [fst snd] in Hint.
          pose proof (@sd_command c answer K w2 cmd input Hg2 Hint) as H. destruct (command w2 cmd input). exact H.
        + pose proof (Hcp n s o w2 Hg2 M Ep N') as H. pose proof (@sd_cp c answer K n s o w2 Hg2 M Ep) as H'. destruct (cp w2 s o). auto. }
    assert (G : forall w2, good w2 /\ stat w2 p = stat w p -> good (fst (run_all (do_job c w1) jobs w2)) /\ stat (fst (run_all (do_job c w1) jobs w2)) p = stat w p).
    { clear - J. induction jobs as [|j jobs IH]; intros w2 Hw; [exact Hw|]. cbn [run_all]. pose proof (J j w2 (or_introl eq_refl) Hw) as H.
      destruct (do_job c w1 j w2) as [w3 x]. cbn [fst] in H. destruct x as [[|x]| |]; try exact H. apply IH; [|exact H]. intros j' w4 Hj. apply J. right. exact Hj. }
    apply G. auto. }
  assert (G : forall rs w1, incl rs (build_rules stat command cp) -> good w1 /\ stat w1 p = stat w p -> stat (fst (run_all (rule_execute c) rs w1)) p = stat w p).
  { induction rs as [|r rs IH]; intros w1 Hi Hw; [apply Hw|]. cbn [run_all]. pose proof (R r w1 (Hi r (or_introl eq_refl)) Hw) as H.
    destruct (rule_execute c r w1) as [w2 x]. cbn [fst] in H. destruct x as [[|x]| |]; try apply H. apply IH; [|exact H]. intros r' Hr. apply Hi. right. exact Hr. }
  apply G; [apply incl_refl|auto].
Qed.

Lemma rule_keeps : forall c answer (I : W -> Prop), site_ok c -> answers c answer -> (forall w, I w -> good w) ->
  (forall w cmd input, I w -> intended c answer cmd input -> I (fst (command w cmd input))) ->
  (forall w s o, I w -> s_copy (c_st c) <> None -> In s (c_copy c) -> f_path o = absolute c (c_short_output c ++ B "/" ++ f_short s) -> I (fst (cp w s o))) ->
  forall r w, In r (build_rules stat command cp) -> I w -> I (fst (rule_execute c r w)).
Proof.
  intros c answer I Hok A Hg Hb Hcp.
  intros r w0 Hr Hw. destruct (refines Hok A Hr) as (l & Hd & _ & Hc2 & Hc3). destruct (Hd w0 (Hg w0 Hw)) as (jobs & E1 & E2 & E3). rewrite E2.
    assert (J : forall j w, In j jobs -> I w -> I (fst (do_job c w0 j w))).
    { intros j w Hj Hi. pose proof (in_turns E1 Hj) as T. unfold do_job. destruct (j_name j) as [n|] eqn:En; [|exact Hi].
      destruct (out_some c w0 n) as (o & Eo). rewrite Eo. destruct (out_path Eo) as [Ep _].
      destruct (if negb (f_readable o) then true else _); [|exact Hi]. pose proof (E3 j n Hj En) as K. pose proof (Hc2 _ _ T) as Hp.
      destruct (j_run j) as [gv lv listing entry template sources first|s]; cbn [perform].
      - unfold run_blogc. destruct (paths _) as [p| |] eqn:Eq; try exact Hi. pose proof (Intended Hp K Eq) as Hint. rewrite <- Ep in Hint.
        destruct (exec_blogc _ _ _ _ _ _ _ _ _) as [cmd input]. cbn [fst snd] in Hint. pose proof (Hb w cmd input Hi Hint) as H. destruct (command w cmd input). exact H.
      - assert (X : In s (c_copy c) /\ n = c_short_output c ++ B "/" ++ f_short s /\ r_name r = B "copy") by (inversion K; auto). destruct X as (X1 & -> & X2).
        assert (X3 : s_copy (c_st c) <> None) by (rewrite X2 in Hp; inversion Hp; assumption).
        pose proof (Hcp w s o Hi X3 X1 Ep) as H. destruct (cp w s o). exact H. }
    clear - J Hw. revert Hw. generalize w0 at 1 3. induction jobs as [|j jobs IH]; intros w Hw; [exact Hw|]. cbn [run_all].
    pose proof (J j w (or_introl eq_refl) Hw) as H. destruct (do_job c w0 j w) as [w2 x]. cbn [fst] in H. destruct x as [[|x]| |]; try exact H.
    apply IH; [|exact H]. intros j' w3 Hj. apply J. right. exact Hj.
Qed.
(* Apart from questions about the last page, only commands meant for a file of the site
   are run, each with the variables, template and sources of its recipe, and only files
   to copy are copied, to their places: whatever such commands keep is kept. *)
Theorem C68_commands : forall c answer (I : W -> Prop), site_ok c -> answers c answer -> (forall w, I w -> good w) ->
  (forall w cmd input, I w -> intended c answer cmd input -> I (fst (command w cmd input))) ->
  (forall w s o, I w -> s_copy (c_st c) <> None -> In s (c_copy c) -> f_path o = absolute c (c_short_output c ++ B "/" ++ f_short s) -> I (fst (cp w s o))) ->
  forall w, I w -> I (fst (all_exec stat command cp c w)).
Proof.
  intros c answer I Hok A Hg Hb Hcp.
  pose proof (rule_keeps Hok A Hg Hb Hcp) as R.
  intros w Hw. unfold all_exec. revert w Hw R. generalize (build_rules stat command cp). induction l as [|r rs IH]; intros w Hw R; [exact Hw|].
  cbn [run_all]. pose proof (R r w (or_introl eq_refl) Hw) as H. destruct (rule_execute c r w) as [w2 x]. cbn [fst] in H.
  destruct x as [[|x]| |]; try exact H. apply IH; [exact H|]. intros r' w' Hr. apply R. right. exact Hr.
Qed.
End Build.

(* After a successful run, a second one does nothing, whatever the tools would do. *)
Theorem C66_second_run : forall W (stat : W -> bytes -> option (Z * Z)) command cp good command2 cp2 c answer w w',
  steady command cp good c answer -> physical stat command cp good c answer -> site_ok c -> answers command good c answer -> answers command2 good c answer ->
  good w -> all_exec stat command cp c w = (w', Ok 0) -> all_exec stat command2 cp2 c w' = (w', Ok 0).
Proof.
  intros W stat command cp good command2 cp2 c answer w w' K P Hok A A2 Hw H. destruct (C67_up_to_date K P Hok A Hw H) as [G U].
  apply C66_nothing_to_do with (answer := answer) (good := good); assumption.
Qed.
Print Assumptions C67_rule.
Print Assumptions C67_up_to_date.
Print Assumptions C66_nothing_to_do.
Print Assumptions C67_untouched.
Print Assumptions C66_second_run.
Print Assumptions C68_commands.

(* In particular the page of a tag lists posts of that tag and that page, although the
   code finds tag and page again from the name of the file. *)
Theorem C68_tag_page : forall c tags t k n v lv listing entry template sources first,
  s_tags (c_st c) = Some tags -> ~ In [] tags -> In t tags -> tag_page c t k = Some n ->
  recipe c (B "pagination_tags") n (JBlogc (Some v) lv listing entry template sources first) ->
  trie_lookup v (B "FILTER_TAG") = Some t /\ trie_lookup v (B "FILTER_PAGE") = Some (Content.dec (N.of_nat k)).
Proof.
  intros c tags t k n v lv listing entry template sources first Ht Hne Hi Hn R.
  inversion R as [| | | |tags' t' k' n' o v' Ht' Hi' Hn' Ho [_ Hv] E1 E2 E3| | | |]; try discriminate. subst. rewrite Ht in Ht'. injection Ht' as <-.
  assert (E : t' = t /\ k' = k).
  { unfold tag_page, digits, dir in Hn. eapply (@P_Filename.C46_tag_pages (Some (c_short_output c)) (look c (B "blog_prefix")) (look c (B "tag_prefix")) (look c (B "pagination_prefix")) (look c (B "html_ext")));
      [intros ->; contradiction|intros ->; contradiction|apply BlockOut.dec_decimal|apply BlockOut.dec_decimal|congruence]. }
  destruct E as [-> ->]. split; rewrite Hv by (apply nul_free; reflexivity); [|reflexivity].
  destruct Ho as (s & a & _ & _ & ->). destruct s, a; reflexivity.
Qed.
Print Assumptions C68_tag_page.

(* a site with two posts, a tag, a page and a file to copy. The world is the list of
   the commands run; a file exists when one wrote it, and blogc says there are 2 pages. *)
Fixpoint contains (s p : bytes) : bool := starts_with s p || match s with [] => false | _ :: r => contains r p end.
Lemma starts_app p b : starts_with (p ++ b) p = true.
Proof. induction p as [|x p IH]; [destruct b; reflexivity|]. cbn [app starts_with]. rewrite eqb_refl. exact IH. Qed.
Lemma contains_app a p b : contains (a ++ p ++ b) p = true.
Proof.
  induction a as [|x a IH]; cbn [app contains].
  - assert (H := starts_app p b). destruct (p ++ b); cbn [contains]; rewrite H; reflexivity.
  - rewrite IH. apply orb_true_r.
Qed.
Definition ex_stat (w : list bytes) (p : bytes) : option (Z * Z) :=
  if existsb (fun cmd => contains cmd (B " -o " ++ shell_quote (Some p))) w then Some (9, 0)%Z else None.
Definition ex_command (w : list bytes) (cmd _ : bytes) : list bytes * cmd_result :=
  if contains cmd (B " -o ") then (w ++ [cmd], CmdDone 0 None None) else (w, CmdDone 0 (Some (B "2" ++ [LF])) None).
Definition ex_cp (w : list bytes) (s o : fctx) : list bytes * nat := (w ++ [B "cp -o " ++ shell_quote (Some (f_path o))], 0).
Definition ex_site : ctx :=
  let st := Settings trie_new (trie_insert (trie_insert (trie_insert trie_new (B "posts_per_page") (B "1")) (B "html_ext") (B ".html")) (B "atom_posts_per_page") (B "0"))
              (Some [B "a"; B "b"]) (Some [B "about"]) (Some [B "c.css"]) (Some [B "x"]) in
  let file n t := Fctx (B "/r/" ++ n) n None (t, 0)%Z true in
  Ctx (Ectx (B "blogc") (B "blogc-runserver") st (B "/r/_build") false) (B "/r") (B "_build")
    (file (B "t") 1%Z) (file (B "f") 1%Z) false (file (B "blogcfile") 2%Z) None [Some (file (B "a.txt") 3%Z); Some (file (B "b.txt") 4%Z)]
    [Some (file (B "about.txt") 5%Z)] [file (B "c.css") 6%Z].
Lemma ex_later w w' : later ex_stat w (w ++ w').
Proof.
  intros p t H. exists t. split; [|apply not_later_refl]. unfold ex_stat in *. rewrite existsb_app. destruct (existsb _ w); [exact H|discriminate].
Qed.
Lemma ex_written w cmd p : contains cmd (B " -o " ++ shell_quote (Some p)) = true -> written ex_stat ex_site (w ++ [cmd]) p.
Proof.
  intro H. exists (9, 0)%Z. split.
  - unfold ex_stat. rewrite existsb_app. cbn [existsb]. rewrite H, orb_true_r. reflexivity.
  - assert (F : Forall (fun f => not_later (f_time f) (9, 0)%Z) (inputs ex_site)) by (repeat (constructor; [left; reflexivity|]); constructor).
    apply Forall_forall. exact F.
Qed.
Lemma contains_prefix s p q : contains s (p ++ q) = true -> contains s p = true.
Proof.
  assert (S : forall s, starts_with s (p ++ q) = true -> starts_with s p = true).
  { induction p as [|x p IH]; intros [|y s'] H; try reflexivity; [discriminate|]. cbn [app starts_with] in *. apply andb_true_iff in H. destruct H as [H1 H2].
    rewrite H1. apply IH. exact H2. }
  induction s as [|x s IH]; cbn [contains]; intro H; apply orb_true_iff in H; apply orb_true_iff; destruct H as [H|H]; auto.
Qed.
Definition anywhere {W} : W -> Prop := fun _ => True.
Example C66_example : physical ex_stat ex_command ex_cp anywhere ex_site (fun _ => Some (B "2")) /\ steady ex_command ex_cp anywhere ex_site (fun _ => Some (B "2")) /\
  site_ok ex_site /\ answers ex_command anywhere ex_site (fun _ => Some (B "2"))
  /\ exists w, all_exec ex_stat ex_command ex_cp ex_site [] = (w, Ok 0) /\ length w = 10
  /\ all_exec ex_stat (fun w cmd input => if contains cmd (B " -o ") then ([], CmdError) else ex_command w cmd input) (fun _ _ _ => ([], 1)) ex_site w = (w, Ok 0).
Proof.
  split; [|split; [split; intros; exact I|split; [|split]]].
  - constructor.
    + intros w cmd input _ _. unfold ex_command. destruct (contains _ _); cbn [fst]; [apply ex_later|apply later_refl].
    + intros n s o w _ _ _. apply ex_later.
    + intros n gv lv listing entry template o sources first w w' _ _ _ H. unfold run_blogc in H. destruct (paths _) as [p| |]; try discriminate.
      unfold exec_blogc in H. set (cmd := build_blogc_cmd _ _ _ _ _ _ _ _ _ _ _) in H.
      assert (K : contains cmd (B " -o " ++ shell_quote (Some (f_path o))) = true).
      { unfold cmd, build_blogc_cmd. unfold option_arg at 3. change (B " -" ++ B "o" ++ B " " ++ shell_quote (Some (f_path o))) with (B " -o " ++ shell_quote (Some (f_path o))).
        rewrite !app_assoc. rewrite <- (app_assoc _ (B " -o ")). rewrite <- (app_assoc _ (B " -o " ++ _)). apply contains_app. }
      unfold ex_command in H. rewrite (contains_prefix K) in H. injection H as <-. apply ex_written. exact K.
    + intros n s o w w' _ _ _ H. injection H as <-. apply ex_written. pose proof (@contains_app (B "cp") (B " -o " ++ shell_quote (Some (f_path o))) []) as K. rewrite app_nil_r in K. exact K.
  - split; [repeat (constructor; [reflexivity|]); constructor|]. split; [intros [E|[E|[]]]; discriminate|]. split; [intros [E|[]]; discriminate|].
    split; intros l E; injection E as <-; reflexivity.
  - split; [intros w _; vm_compute; reflexivity|]. split; [|intros t s E; injection E as <-; vm_compute; discriminate].
    intros tags t w _ E Ht. injection E as <-. destruct Ht as [<-|[]]. vm_compute. reflexivity.
  - eexists. split; [vm_compute; reflexivity|]. split; [reflexivity|]. vm_compute. reflexivity.
Qed.

(* Finding: what blogc is told is not among the things compared. After a build, one
   with -D, that would tell blogc MAKE_ENV=dev, builds nothing. *)
Definition with_dev (c : ctx) : ctx :=
  let e := c_exec c in
  Ctx (Ectx (e_blogc e) (e_runserver e) (e_settings e) (e_output_dir e) true) (c_root c) (c_short_output c) (c_main c) (c_atom c) (c_atom_tmp c)
    (c_settings c) (c_entry c) (c_posts c) (c_pages c) (c_copy c).
Theorem C66_dev_refuted : exists c w w1 w2, all_exec ex_stat ex_command ex_cp c [] = (w, Ok 0) /\ all_exec ex_stat ex_command ex_cp (with_dev c) [] = (w1, Ok 0)
  /\ w <> w1 /\ all_exec ex_stat ex_command ex_cp (with_dev c) w = (w2, Ok 0) /\ w2 = w.
Proof.
  exists ex_site. do 3 eexists. split; [vm_compute; reflexivity|]. split; [vm_compute; reflexivity|]. split; [|split; vm_compute; reflexivity].
  intro H. apply (f_equal (fun w => existsb (fun cmd => contains cmd (B "MAKE_ENV")) w)) in H. vm_compute in H. discriminate.
Qed.
Print Assumptions C66_dev_refuted.

(* two files to copy, of which the first is up to date *)
Definition ex_cstat (w : list (bytes * (Z * Z))) (p : bytes) : option (Z * Z) :=
  match find (fun x => beq (fst x) p) w with Some x => Some (snd x) | None => None end.
Definition ex_ccp (w : list (bytes * (Z * Z))) (s o : fctx) : list (bytes * (Z * Z)) * nat := ((f_path o, (9, 0)%Z) :: w, 0).
Definition ex_copies : ctx :=
  let file n t := Fctx (B "/r/" ++ n) n None (t, 0)%Z true in
  Ctx (Ectx (B "blogc") (B "blogc-runserver") (Settings trie_new trie_new None None (Some [B "a"; B "b"]) None) (B "/r/_build") false) (B "/r") (B "_build")
    (file (B "t") 1%Z) (file (B "f") 1%Z) false (file (B "blogcfile") 2%Z) None [] [] [file (B "a") 3%Z; file (B "b") 4%Z].
Example C67_example :
  let command := fun w (_ _ : bytes) => (w, CmdDone 0 (Some (B "1" ++ [LF])) None) in
  let w := [(B "/r/_build/a", (3, 0)%Z); (B "/r/_build/b", (3, 0)%Z)] in
  site_ok ex_copies /\ steady command ex_ccp anywhere ex_copies (fun _ => Some (B "1")) /\ answers command anywhere ex_copies (fun _ => Some (B "1"))
  /\ (forall s o w p, p <> f_path o -> ex_cstat (fst (ex_ccp w s o)) p = ex_cstat w p)
  /\ (forall gv lv listing entry template o sources first w p, p <> f_path o ->
        ex_cstat (fst (run_blogc command ex_copies gv lv listing entry template o sources first w)) p = ex_cstat w p)
  /\ (forall rule n d, product ex_copies (fun _ => Some (B "1")) rule n d -> absolute ex_copies n = B "/r/_build/a" -> up_to_date ex_cstat w (B "/r/_build/a") d)
  /\ all_exec ex_cstat command ex_ccp ex_copies w = ((B "/r/_build/b", (9, 0)%Z) :: w, Ok 0).
Proof.
  cbv zeta. split; [|split; [split; intros; exact I|split; [|split; [|split; [|split]]]]].
  - split; [repeat (constructor; [reflexivity|]); constructor|]. split; [intros []|]. split; [intros []|]. split; intros l E; discriminate.
  - split; [intros w _; vm_compute; reflexivity|]. split; [intros tags t w _ E; discriminate|]. intros t s E. injection E as <-. vm_compute. discriminate.
  - intros s o w p H. unfold ex_cstat. cbn [ex_ccp fst find]. rewrite (proj2 (beq_neq (f_path o) p)) by (intro E; apply H; symmetry; exact E). reflexivity.
  - intros. unfold run_blogc. destruct (paths _); [|reflexivity|reflexivity]. destruct (exec_blogc _ _ _ _ _ _ _ _ _). reflexivity.
  - intros rule n d P E. inversion P as [ | | | | |? ? ? ? ? X| |? ? ? ? ? X|f X Hf]; subst; try discriminate X; try match goal with H : s_posts _ <> None |- _ => destruct (H eq_refl) end.
    destruct Hf as [<-|[<-|[]]]; [|vm_compute in E; discriminate].
    exists (3, 0)%Z. split; [vm_compute; reflexivity|]. intros g [<-|[<-|[]]]; unfold not_later; cbn; lia.
  - vm_compute. reflexivity.
Qed.
