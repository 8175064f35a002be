(* The block parser gives a result for texts with quotes and lists, if in all quotes, at every depth,
   the lines of the lists all belong to an item. *)
From Verif Require Import Base Utils UtilsProofs Toctree Content InlineSpec InlineProofs BlockSpec BlockProofs BlockTerm BlockSafe
  DocSpec ListSpec BlockFwd BlockDoc BlockList.
#[local] Arguments B : simpl never.

Lemma quoted_in p ls u : quoted p ls u -> incl (concat ls) u /\ ls <> [].
Proof.
  induction 1 as [n l c r Hn Hl E Hb|ls u d l H [IH1 IH2] Hd Hl].
  - cbn [concat]. rewrite app_nil_r. split; [|discriminate]. intros x Hx. apply in_or_app. auto.
  - rewrite concat_app. cbn [concat]. rewrite app_nil_r. split; [|destruct ls; discriminate].
    intros x Hx. apply in_app_or in Hx. apply in_or_app. destruct Hx as [Hx|Hx]; [left; auto|right; right; apply in_or_app; auto].
Qed.
Lemma quoted_cnt p w ls u : p = ">"%char :: w -> quoted p ls u -> cnt (concat ls) + length ls <= cnt u.
Proof.
  intros ->. assert (P : 1 <= cnt (">"%char :: w)) by (unfold cnt; rewrite count_occ_cons_eq by reflexivity; lia).
  induction 1 as [n l c r Hn Hl E Hb|ls u d l H IH Hd Hl].
  - cbn [concat length]. rewrite app_nil_r, !cnt_app. lia.
  - rewrite concat_app, cnt_app, app_length. cbn [concat length]. rewrite app_nil_r. change (d :: (">"%char :: w) ++ l) with ([d] ++ (">"%char :: w) ++ l). rewrite !cnt_app. lia.
Qed.
(* no line ends with a backslash *)
Lemma nts_lines x ls : newline_byte x -> Forall no_trailing_backslash ls -> no_trailing_backslash (flat_map (fun l => l ++ [x]) ls).
Proof.
  intros Hx. induction 1 as [|l ls Hl _ IH]; intros u v E; [destruct u; discriminate|]. cbn [flat_map] in E. rewrite <- app_assoc in E. cbn [app] in E.
  set (R := flat_map _ ls) in *. clearbody R. revert u E. induction l as [|d l IHl]; intros u E; cbn [app] in E.
  - destruct u as [|k u]; [injection E as E _; subst x; destruct Hx; discriminate|]. injection E as _ E. exact (IH u v E).
  - destruct u as [|k u].
    + cbn [app] in E. injection E as -> E. destruct (Hl [] l eq_refl) as (c & r & -> & Hc). cbn in E. exists c, (r ++ x :: R). auto.
    + cbn [app] in E. injection E as _ E. apply (fun H => IHl H u E). intros y z K. exact (Hl (d :: y) z (f_equal (cons d) K)).
Qed.
Lemma nts_piece s w l z : no_trailing_backslash s -> s = w ++ l ++ z -> (z = [] \/ exists c r, z = c :: r /\ newline_byte c) -> no_trailing_backslash l.
Proof.
  intros H E Hz x y El. destruct (H (w ++ x) (y ++ z)) as (c & r & E1 & Hc); [rewrite E, El, <- !app_assoc; reflexivity|].
  destruct y as [|d y]; [|injection E1 as <- _; eauto]. exfalso. cbn in E1. destruct Hz as [->|(d & q & -> & Hd)]; [discriminate|].
  injection E1 as -> _. contradiction.
Qed.
Lemma quoted_nts p ls u : quoted p ls u -> forall s w z, no_trailing_backslash s -> s = w ++ u ++ z ->
  (z = [] \/ exists c r, z = c :: r /\ newline_byte c) -> Forall no_trailing_backslash ls.
Proof.
  induction 1 as [n l c r Hn Hl E Hb|ls u d l H IH Hd Hl]; intros s w z Hs Es Hz.
  - constructor; [|constructor]. apply (@nts_piece s (w ++ p) (n ++ l) z); auto. rewrite Es, <- !app_assoc. reflexivity.
  - apply Forall_app. split.
    + apply (IH s w ((d :: p ++ l) ++ z) Hs); [rewrite Es, <- !app_assoc; reflexivity|]. right. exists d, ((p ++ l) ++ z). auto.
    + constructor; [|constructor]. apply (@nts_piece s (w ++ u ++ d :: p) l z); auto. rewrite Es, <- !app_assoc. cbn. rewrite <- !app_assoc. reflexivity.
Qed.
Lemma inside_trans s t q : inside s t -> inside t q -> inside s q.
Proof. intros H. induction 1 as [|t' q H1 IH H2]; [exact H|]. exact (In_quote IH H2). Qed.

Lemma content_nested : forall fuel o s le a, newline_of s a -> only_nl a s -> le = None \/ le = Some [a] -> no_nul s -> no_trailing_backslash s ->
  (forall t, inside s t -> no_empty_items t /\ lists_kept t) -> cnt s < fuel -> exists b, content_parse fuel o s le = Ok b.
Proof.
  induction fuel as [|f IH]; intros o s le a Ha Ho Hle Hn Hb Hin Hf; [lia|]. cbn [content_parse]. set (rec := fun t e => _).
  destruct (Hin s (In_self s)) as [Hei Hk].
  assert (HQ : only_nl a s /\ newline_of s a /\ forall w u z x p v ls, s = w ++ u ++ z -> line_break w ->
     (z = [] \/ exists c r, z = c :: r /\ newline_byte c) -> p = ">"%char :: v -> Forall blank v -> quoted p ls u -> newline_of s x ->
     exists r, rec (lines_text [x] ls) [x] = Ok r).
  { split; [exact Ho|]. split; [exact Ha|]. intros w u z x p v ls Es Hw Hz Hp Hv Hu Hx.
    destruct (quoted_in Hu) as [Qi Qn]. pose proof (quoted_cnt Hp Hu) as Qc.
    assert (Iu : incl u s) by (rewrite Es; intros c Hc; apply in_or_app; right; apply in_or_app; auto).
    assert (Nx : newline_byte x) by apply Hx.
    assert (Ox : forall c, In c s -> is_nl c = true -> c = x).
    { intros c Hc Ec. destruct Hx as (_ & [Hx|(-> & Hx)]).
      - rewrite (Ho x Hx (proj2 (is_nl_iff x) Nx)). exact (Ho c Hc Ec).
      - apply is_nl_iff in Ec. destruct Ec as [->| ->]; [reflexivity|contradiction]. }
    destruct (IH quote_opts (lines_text [x] ls) (Some [x]) x) as (b & Eb).
    - split; [exact Nx|left]. destruct ls as [|l ls]; [contradiction|]. unfold lines_text. cbn [flat_map]. apply in_or_app. left. apply in_or_app. right. left. reflexivity.
    - intros c Hc Ec. apply lines_text_in in Hc. destruct Hc as [Hc|[<-|[]]]; [|reflexivity]. apply Ox; auto.
    - right. reflexivity.
    - intro K. apply lines_text_in in K. destruct K as [K|[K|[]]]; [exact (Hn (Iu _ (Qi _ K)))|exact (nl_no_nul Nx K)].
    - apply nts_lines; [exact Nx|]. exact (quoted_nts Hu Hb Es Hz).
    - intros t Ht. apply Hin. refine (inside_trans (In_quote (In_self s) _) Ht). exists w, u, z, x, p, v, ls. repeat (split; [assumption|]). reflexivity.
    - rewrite (@cnt_lines_text s (length s) eq_refl x ls Nx). assert (length ls <> 0) by (destruct ls; [contradiction|discriminate]).
      assert (cnt u <= cnt s) by (rewrite Es, !cnt_app; lia). lia.
    - unfold rec. rewrite Eb. cbn [rbind]. eauto. }
  assert (Na : newline_byte a) by apply Ha.
  assert (St : forall cur b, K2 s cur b /\ (only_nl a s -> LQ a (firstn cur s) b) -> cur < length s ->
    match iter rec o s (length s) cur b with Ok (cur', b') => K2 s cur' b' /\ (only_nl a s -> LQ a (firstn cur' s) b') | UB => False | OutOfFuel => False end).
  { intros cur b (H1 & H2) L. pose proof (iter_K (rec := rec) o eq_refl Hn Hb (a0 := a) (or_intror HQ) Hei Hk Na H1 H2 L) as K.
    assert (K' := fun H => iter_L rec o (s := s) eq_refl (a0 := a) Na H (H2 H) L). unfold outK in K.
    destruct (iter rec o s (length s) cur b) as [(cur', b')| |]; auto. }
  pose proof (@bloop_inv rec o s (length s) _ False False eq_refl St (2 * length s) 0 (bv0 le)) as K.
  cbn beta in K. assert (I0 : K2 s 0 (bv0 le)) by (apply K0; destruct Hle; [auto|right; exists a; auto]).
  specialize (K (conj I0 (fun _ => LQ0 Hle)) (Nat.le_0_l _)).
  destruct (bloop _ rec o s _ 0 (bv0 le)); [eauto| |];
    destruct K; pose proof (need_le (length s) 0 (bv0 le)); lia.
Qed.
