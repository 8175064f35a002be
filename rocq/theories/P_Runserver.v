(* blogc-runserver (C41-C44). *)
From Verif Require Import Base Utils UtilsProofs Content BlockSpec BlockOut Runserver RunserverSpec.
#[local] Open Scope nat_scope.
#[local] Arguments B : simpl never.

(* ---------- C41 ---------- *)
Lemma hextoi_value c : hextoi c = hex_value c.
Proof. destruct c as [[] [] [] [] [] [] [] []]; vm_compute; reflexivity. Qed.
Lemma urldecode_lone r : (forall h l r', r = h :: l :: r' -> hex_value h = None \/ hex_value l = None) ->
  urldecode ("%"%char :: r) = "%"%char :: urldecode r.
Proof.
  intro H. cbn [urldecode]. change (("%" == "%")%char) with true. cbn iota. destruct r as [|h [|l r]]; [reflexivity|reflexivity|].
  rewrite !hextoi_value. destruct (H h l r eq_refl) as [E|E]; rewrite E; [reflexivity|]. destruct (hex_value h); reflexivity.
Qed.
Lemma urldecode_other c r : c <> "%"%char -> c <> "+"%char -> urldecode (c :: r) = c :: urldecode r.
Proof. intros H1 H2. cbn [urldecode]. apply eqb_neq in H1, H2. rewrite H1, H2. reflexivity. Qed.
Lemma urldecode_escape h l a b r : hextoi h = Some a -> hextoi l = Some b ->
  urldecode ("%"%char :: h :: l :: r) = ascii_of_N (a * 16 + b) :: urldecode r.
Proof. intros H1 H2. cbn [urldecode]. change (("%" == "%")%char) with true. cbn iota. rewrite H1, H2. reflexivity. Qed.
Theorem C41_decodes : forall s v, decodes s v <-> v = urldecode s.
Proof.
  intros s v. split.
  - induction 1 as [|h l a b r v Ha Hb H IH|r v H IH|c r v H1 H2 H IH|r v Hl H IH].
    + reflexivity.
    + cbn [urldecode]. change (("%" == "%")%char) with true. cbn iota. rewrite !hextoi_value, Ha, Hb, N.mul_comm, IH. reflexivity.
    + cbn [urldecode]. change (("+" == "%")%char) with false. change (("+" == "+")%char) with true. cbn iota. rewrite IH. reflexivity.
    + cbn [urldecode]. apply eqb_neq in H1, H2. rewrite H1, H2, IH. reflexivity.
    + rewrite urldecode_lone by exact Hl. rewrite IH. reflexivity.
  - intros ->. remember (length s) as n eqn:En. assert (Hn : length s <= n) by lia. clear En. revert s Hn.
    induction n as [|n IH]; intros s Hn; [destruct s; [constructor|cbn [length] in Hn; lia]|].
    destruct s as [|c r]; [constructor|]. cbn [length] in Hn.
    destruct (c == "%"%char) eqn:Ec.
    + apply eqb_true in Ec. subst c. 
      assert (K : (exists h l r' a b, r = h :: l :: r' /\ hex_value h = Some a /\ hex_value l = Some b) \/
                  (forall h l r', r = h :: l :: r' -> hex_value h = None \/ hex_value l = None)).
      { destruct r as [|h [|l r]]; [right; intros; discriminate|right; intros; discriminate|].
        destruct (hex_value h) as [a|] eqn:Ea; [destruct (hex_value l) as [b|] eqn:Eb|].
        - left. exists h, l, r, a, b. auto.
        - right. intros h' l' r' E. injection E as <- <- <-. auto.
        - right. intros h' l' r' E. injection E as <- <- <-. auto. }
      destruct K as [(h & l & r' & a & b & -> & Ha & Hb)|K].
      * cbn [urldecode]. change (("%" == "%")%char) with true. cbn iota. rewrite !hextoi_value, Ha, Hb, N.mul_comm.
        constructor; [exact Ha|exact Hb|]. apply IH. cbn [length] in Hn. lia.
      * rewrite urldecode_lone by exact K. apply D_lone; [exact K|]. apply IH. lia.
    + destruct (c == "+"%char) eqn:Ep.
      * apply eqb_true in Ep. subst c. cbn [urldecode]. change (("+" == "%")%char) with false. change (("+" == "+")%char) with true. cbn iota.
        constructor. apply IH. lia.
      * cbn [urldecode]. rewrite Ec, Ep. apply D_other; [apply eqb_neq; exact Ec|apply eqb_neq; exact Ep|]. apply IH. lia.
Qed.
Print Assumptions C41_decodes.

(* what is encoded comes back, whatever bytes are left as they are *)
Theorem C41_roundtrip : forall keep s, keep "%"%char = false -> keep "+"%char = false -> urldecode (encode keep s) = s.
Proof.
  intros keep s H1 H2. unfold encode. induction s as [|c s IH]; [reflexivity|]. cbn [flat_map]. destruct (keep c) eqn:Ek.
  - cbn [app]. rewrite urldecode_other by (intros ->; congruence). f_equal. exact IH.
  - unfold escape. cbn [app].
    pose proof (@forall_bytes (fun c => match hextoi (hex_digit (N_of_ascii c / 16)), hextoi (hex_digit (N_of_ascii c mod 16)) with
      | Some a, Some b => Ascii.eqb (ascii_of_N (a * 16 + b)) c | _, _ => false end) eq_refl c) as K. cbv beta in K.
    destruct (hextoi (hex_digit (N_of_ascii c / 16))) as [a|] eqn:Ea; [|discriminate].
    destruct (hextoi (hex_digit (N_of_ascii c mod 16))) as [b|] eqn:Eb; [|discriminate]. apply eqb_true in K. rewrite (urldecode_escape _ Ea Eb), K. f_equal. exact IH.
Qed.
Print Assumptions C41_roundtrip.
Example C41_ex : urldecode (encode (fun c => is_digit c || is_lower c) (B "/a+b c%2F")) = B "/a+b c%2F"
  /\ encode (fun c => is_digit c || is_lower c) (B "/a+b c%2F") = B "%2Fa%2Bb%20c%252%46".
Proof. vm_compute. auto. Qed.
(* more than escapes is replaced, and malformed ones are not rejected *)
Theorem C41_refuted : urldecode (B "a+b") <> B "a+b" /\ urldecode (B "100%") = B "100%" /\ urldecode (B "%zz%4") = B "%zz%4".
Proof. vm_compute. repeat split; congruence. Qed.
Print Assumptions C41_refuted.

(* ---------- C42 ---------- *)
Lemma extension_spec rl : forall acc ext, plain_ext acc -> extension_go rl acc = Some ext <->
  exists pre mid, pre <> [] /\ rl = mid ++ "."%char :: rev pre /\ ext = rev mid ++ acc /\ plain_ext (rev mid ++ acc).
Proof.
  induction rl as [|c rl IH]; intros acc ext Ha.
  - split; [discriminate|]. intros (pre & mid & _ & E & _). destruct mid; discriminate E.
  - cbn [extension_go]. destruct rl as [|c2 rl].
    { split; [discriminate|]. intros (pre & mid & Hp & E & _). exfalso. assert (L := f_equal (@length _) E). rewrite app_length in L. cbn [length] in L.
      rewrite rev_length in L. destruct pre; [contradiction|cbn [length] in L; lia]. }
    destruct (c == "."%char) eqn:Ed.
    { apply eqb_true in Ed. subst c. split.
      - intro E. injection E as <-. exists (rev (c2 :: rl)), []. split; [cbn [rev]; intro E; apply (f_equal (@length _)) in E; rewrite app_length in E; cbn [length] in E; lia|].
        rewrite rev_involutive. split; [reflexivity|]. split; [reflexivity|exact Ha].
      - intros (pre & mid & Hp & E & -> & Hm). destruct mid as [|m mid]; [reflexivity|]. exfalso. injection E as <- E.
        destruct Hm as (Hm & _). apply Hm. apply in_or_app. left. cbn [rev]. apply in_or_app. right. left. reflexivity. }
    destruct ((c == "/"%char) || (c == BSL)) eqn:Es.
    { split; [discriminate|]. intros (pre & mid & Hp & E & -> & Hm). exfalso. destruct mid as [|m mid]; [injection E as -> _; discriminate Ed|]. injection E as <- E.
      destruct Hm as (_ & H1 & H2). apply orb_true_iff in Es. rewrite !eqb_true in Es.
      assert (I : In c (rev (c :: mid) ++ acc)) by (apply in_or_app; left; cbn [rev]; apply in_or_app; right; left; reflexivity).
      destruct Es as [-> | ->]; contradiction. }
    assert (Ha2 : plain_ext (c :: acc)).
    { destruct Ha as (H1 & H2 & H3). apply orb_false_iff in Es. destruct Es as [E1 E2]. apply eqb_neq in E1, E2, Ed.
      repeat split; intros [E|E]; subst; contradiction. }
    rewrite (IH _ _ Ha2). split.
    + intros (pre & mid & Hp & E & -> & Hm). exists pre, (c :: mid). split; [exact Hp|]. split; [rewrite E; reflexivity|].
      cbn [rev]. rewrite <- app_assoc. auto.
    + intros (pre & mid & Hp & E & -> & Hm). destruct mid as [|m mid]; [injection E as -> _; discriminate Ed|]. injection E as <- E.
      exists pre, mid. split; [exact Hp|]. split; [exact E|]. cbn [rev] in Hm |- *. rewrite <- app_assoc in Hm |- *. auto.
Qed.
(* the extension is what follows the last dot of the last component, unless that dot is
   the first byte of the name *)
Theorem C42_extension : forall name ext, get_extension name = Some ext <-> has_ext name ext.
Proof.
  intros name ext. unfold get_extension, has_ext. rewrite extension_spec by (repeat split; intros []).
  split.
  - intros (pre & mid & Hp & E & -> & Hm). rewrite app_nil_r in *. exists pre. split; [exact Hp|]. split; [|exact Hm].
    rewrite <- (rev_involutive name), E, rev_app_distr. cbn [rev]. rewrite rev_involutive, <- app_assoc. reflexivity.
  - intros (pre & Hp & -> & Hm). exists pre, (rev ext). split; [exact Hp|]. split; [rewrite rev_app_distr; cbn [rev]; rewrite <- app_assoc; reflexivity|].
    rewrite app_nil_r, rev_involutive. auto.
Qed.
Print Assumptions C42_extension.
Lemma types_unique : NoDup (map (fun x => snd (fst x)) content_types).
Proof.
  apply NoDup_nth with (d := []). 
  assert (K : forallb (fun i => forallb (fun j => implb (beq (nth i (map (fun x => snd (fst x)) content_types) []) (nth j (map (fun x => snd (fst x)) content_types) [])) (Nat.eqb i j))
     (seq 0 (length (map (fun x : bytes * bytes * option bytes => snd (fst x)) content_types)))) (seq 0 (length (map (fun x : bytes * bytes * option bytes => snd (fst x)) content_types))) = true) by (vm_compute; reflexivity).
  intros i j Hi Hj E. rewrite forallb_forall in K. specialize (K i). rewrite forallb_forall in K. specialize (K ltac:(apply in_seq; lia) j ltac:(apply in_seq; lia)).
  rewrite E, beq_refl in K. apply Nat.eqb_eq. exact K.
Qed.
Lemma find_type_in l ext ct i : NoDup (map (fun x : bytes * bytes * option bytes => snd (fst x)) l) -> In (ct, ext, i) l -> find_type l ext = ct.
Proof.
  induction l as [|[[c e] k] l IH]; intros Hn Hi; [contradiction|]. cbn [find_type]. inversion Hn as [|? ? H1 H2]; subst.
  destruct Hi as [E|Hi]; [injection E as -> -> ->; rewrite beq_refl; reflexivity|].
  destruct (beq_spec e ext) as [->|N]; [|apply IH; assumption]. exfalso. apply H1. cbn [fst snd]. apply in_map_iff. exists (ct, ext, i). auto.
Qed.
Lemma find_type_none l ext : (forall ct i, ~ In (ct, ext, i) l) -> find_type l ext = B "application/octet-stream".
Proof.
  induction l as [|[[c e] k] l IH]; intro H; [reflexivity|]. cbn [find_type].
  destruct (beq_spec e ext) as [->|N]; [exfalso; exact (H c k (or_introl eq_refl))|]. apply IH. intros ct i I. exact (H ct i (or_intror I)).
Qed.
(* the type registered for the extension, if there is one; for names with a directory
   the extension may be the whole last component *)
Theorem C42_type : forall name ext ct i, has_ext name ext -> In (ct, ext, i) content_types -> guess_content_type name = ct.
Proof.
  intros name ext ct i H Hi. unfold guess_content_type. apply C42_extension in H. rewrite H. eapply find_type_in; [exact types_unique|exact Hi].
Qed.
Print Assumptions C42_type.
Theorem C42_other : forall name, (forall ext ct i, has_ext name ext -> ~ In (ct, ext, i) content_types) -> guess_content_type name = B "application/octet-stream".
Proof.
  intros name H. unfold guess_content_type. destruct (get_extension name) as [ext|] eqn:E; [|reflexivity]. apply C42_extension in E.
  apply find_type_none. intros ct i. apply H. exact E.
Qed.
Print Assumptions C42_other.
Example C42_ex : guess_content_type (B "/srv/www/a.b/post.html") = B "text/html" /\ guess_content_type (B "/srv/a.html/post") = B "application/octet-stream"
  /\ guess_content_type (B "/srv/a.HTML") = B "application/octet-stream" /\ guess_content_type (B "/srv/.css") = B "text/css".
Proof. vm_compute. auto. Qed.
Example C42_has_ext : has_ext (B "/srv/www/post.tar.html") (B "html") /\ In (B "text/html", B "html", Some (B "index.html")) content_types.
Proof. split; [|left; reflexivity]. exists (B "/srv/www/post.tar"). split; [discriminate|]. split; [reflexivity|]. repeat split; intro H; vm_compute in H; intuition discriminate. Qed.
(* a bare name that begins with its only dot has no extension *)
Theorem C42_refuted : guess_content_type (B ".html") = B "application/octet-stream" /\ guess_content_type (B "x/.html") = B "text/html".
Proof. vm_compute. auto. Qed.
Print Assumptions C42_refuted.

(* ---------- C43 ---------- *)
Section C43.
Variables (realpath : bytes -> option bytes) (enoent : bytes -> bool) (stat : bytes -> option bool) (access : bytes -> bool) (contents : bytes -> option bytes).
Notation handle := (handle_request realpath enoent stat access contents).

Lemma handle_file docroot line f d : handle docroot line = Ok (File f d) ->
  exists q path p root, realpath docroot = Some root /\ q = docroot ++ B "/" ++ path /\ realpath q = Some p /\ firstn (length root) p = root
    /\ (f = p /\ stat p = Some false \/ stat p = Some true /\ exists ct e i, In (ct, e, Some i) content_types /\ f = p ++ B "/" ++ i)
    /\ access f = true /\ contents f = Some d.
Proof.
  unfold handle_request. destruct line as [|c line]; [discriminate|]. destruct (str_split (c :: line) SP 3) as [|m [|t [|r [|]]]]; try discriminate.
  destruct (negb _); [discriminate|]. destruct (str_split t _ 2) as [|p ps]; [discriminate|]. intro E. injection E as E.
  set (path := cstr (urldecode p)) in *. clearbody path. unfold serve in E.
  destruct (realpath (docroot ++ B "/" ++ path)) as [rp|] eqn:Ep; [|destruct (enoent _); discriminate].
  destruct (realpath docroot) as [root|]; [|discriminate]. destruct (beq (firstn (length root) rp) root) eqn:Eb; [|discriminate]. cbn [negb] in E.
  apply beq_eq in Eb. exists (docroot ++ B "/" ++ path), path, rp, root.
  destruct (stat rp) as [[|]|] eqn:Es; [| |discriminate].
  - destruct (guess_index access rp) as [g|] eqn:Eg; [|discriminate]. destruct (access g) eqn:Ea; [|discriminate]. cbn [negb] in E.
    destruct (_ && _); [discriminate|]. destruct (contents g) as [x|] eqn:Ec; [|discriminate]. injection E as <- <-.
    repeat (split; [first [assumption|reflexivity]|]). split; [right; split; [reflexivity|]|auto].
    unfold guess_index in Eg. clear -Eg. induction content_types as [|[[ct e] [i|]] l IH]; cbn [guess_index_go] in Eg; try discriminate. destruct (access _).
    + injection Eg as <-. exists ct, e, i. split; [left; reflexivity|reflexivity].
    + destruct (IH Eg) as (ct' & e' & j & H & ->). exists ct', e', j. split; [right; exact H|reflexivity].
  - destruct (access rp) eqn:Ea; [|discriminate]. cbn [negb] in E. destruct (contents rp) as [x|] eqn:Ec; [|discriminate]. injection E as <- <-.
    repeat (split; [first [assumption|reflexivity]|]). split; [left; auto|auto].
Qed.
(* A file is served if the real path of what was asked for has the real path of the
   document root as a prefix: it is that file or one of the indexes of that directory.
   It is inside the document root if no other directory has a name that begins with the
   one of the document root, and if no index is a symbolic link. Missing for the full
   property: the two refutations below. *)
Theorem C43_served_partial : forall docroot line f d, handle docroot line = Ok (File f d) ->
  exists root, realpath docroot = Some root /\ contents f = Some d /\ (exists r, f = root ++ r) /\
  ((forall q p, realpath q = Some p -> (exists r, p = root ++ r) -> inside root p) -> inside root f).
Proof.
  intros docroot line f d H. destruct (handle_file H) as (q & path & p & root & Hr & Hq & Hp & Hpre & Hf & Ha & Hc).
  assert (P : exists r, p = root ++ r) by (exists (skipn (length root) p); rewrite <- Hpre at 1; symmetry; apply firstn_skipn).
  exists root. split; [exact Hr|]. split; [exact Hc|]. split.
  - destruct Hf as [[-> _]|(_ & ct & e & i & _ & ->)]; [exact P|]. destruct P as (r & ->). exists (r ++ B "/" ++ i). rewrite <- app_assoc. reflexivity.
  - intro S. specialize (S _ _ Hp P). destruct Hf as [[-> _]|(_ & ct & e & i & _ & ->)]; [exact S|].
    destruct S as [->|[->|(r & ->)]].
    + right. right. exists i. reflexivity.
    + right. left. reflexivity.
    + right. right. exists (r ++ B "/" ++ i). rewrite <- !app_assoc. reflexivity.
Qed.
End C43.
Print Assumptions C43_served_partial.

(* a file system with a directory next to the document root *)
Definition fs_real (p : bytes) : option bytes :=
  if beq p (B "/srv/www") then Some p
  else if beq p (B "/srv/www//post.html") then Some (B "/srv/www/post.html")
  else if beq p (B "/srv/www//../www-private/key") then Some (B "/srv/www-private/key")
  else if beq p (B "/srv/www//d/") then Some (B "/srv/www/d")
  else if beq p (B "/srv/www/d/index.html") then Some (B "/etc/passwd")       (* a symbolic link *)
  else None.
Definition fs_stat (p : bytes) : option bool := Some (beq p (B "/srv/www/d")).
Definition fs_data (p : bytes) : option bytes :=
  Some (if beq p (B "/srv/www/post.html") then B "hello" else if beq p (B "/srv/www-private/key") then B "secret" else B "root:x:0:0").
Definition fs_handle : bytes -> bytes -> res response := handle_request fs_real (fun _ => true) fs_stat (fun _ => true) fs_data.
Example C43_ex : fs_handle (B "/srv/www") (B "GET /%70ost.html?a=b HTTP/1.0") = Ok (File (B "/srv/www/post.html") (B "hello"))
  /\ fs_handle (B "/srv/www") (B "GET /d/ HTTP/1.0") = Ok (File (B "/srv/www/d/index.html") (B "root:x:0:0")).
Proof. vm_compute. auto. Qed.
(* the name of the document root is only compared as a prefix *)
Theorem C43_refuted : exists realpath enoent stat access contents docroot line f d,
  handle_request realpath enoent stat access contents docroot line = Ok (File f d) /\
  realpath docroot = Some docroot /\ ~ inside docroot f.
Proof.
  exists fs_real, (fun _ => true), fs_stat, (fun _ => true), fs_data, (B "/srv/www"), (B "GET /../www-private/key HTTP/1.0"), (B "/srv/www-private/key"), (B "secret").
  split; [vm_compute; reflexivity|]. split; [vm_compute; reflexivity|]. intros [H|[H|(r & H)]]; vm_compute in H; discriminate H.
Qed.
Print Assumptions C43_refuted.
(* the index of a directory may be a link to anything *)
Theorem C43_index_refuted : exists realpath enoent stat access contents docroot line f d p,
  handle_request realpath enoent stat access contents docroot line = Ok (File f d) /\
  realpath docroot = Some docroot /\ realpath f = Some p /\ ~ inside docroot p.
Proof.
  exists fs_real, (fun _ => true), fs_stat, (fun _ => true), fs_data, (B "/srv/www"), (B "GET /d/ HTTP/1.0"), (B "/srv/www/d/index.html"), (B "root:x:0:0"), (B "/etc/passwd").
  split; [vm_compute; reflexivity|]. split; [vm_compute; reflexivity|]. split; [vm_compute; reflexivity|]. intros [H|[H|(r & H)]]; vm_compute in H; discriminate H.
Qed.
Print Assumptions C43_index_refuted.

(* ---------- C44 ---------- *)
Record inv (max_threads : nat) (s : server) : Prop := Inv {
  i_current : current s < max_threads;
  i_nodup : NoDup (map fst (workers s));
  i_slots : forall x, In x (map fst (workers s)) -> x < max_threads;
  i_joined : md s = Joined -> ~ In (current s) (map fst (workers s));
  i_init : forall x, (md s = Joined \/ md s = Stopped) /\ x = current s \/ (initialized s x = true <-> In x (map fst (workers s))) }.
Lemma inv_steps n s : 0 < n -> ssteps n started s -> inv n s.
Proof.
  intros Hn H. remember started as s0. induction H as [s|s1 s2 s3 H IH Hs]; subst.
  - constructor; cbn; [exact Hn|constructor|intros x []|discriminate|]. intro x. right. split; [discriminate|intros []].
  - specialize (IH eq_refl). clear H. destruct IH as [H1 H2 H3 H4 H5].
    inversion Hs; subst; cbn [md current initialized workers] in *.
    + constructor; cbn; auto; [discriminate|]. intro x. destruct (H5 x) as [[[E|E] _]|E]; [discriminate|discriminate|]. auto.
    + constructor; cbn; auto; [discriminate|]. intro x. destruct (H5 x) as [[[E|E] _]|E]; [discriminate|discriminate|]. auto.
    + rename H into Hi. constructor; cbn; auto.
      * intros _ I. destruct (H5 c) as [[[E|E] _]|E]; [discriminate|discriminate|]. apply E in I. congruence.
      * intro x. destruct (H5 x) as [[[E|E] _]|E]; [discriminate|discriminate|]. auto.
    + rename H into Hi. rewrite map_app in *. cbn [map fst] in *.
      assert (N1 : NoDup (map fst (w1 ++ w2)) /\ ~ In c (map fst (w1 ++ w2))) by (rewrite map_app; apply NoDup_remove; exact H2).
      destruct N1 as [N1 N2]. constructor; cbn; auto.
      * intros x I. apply H3. rewrite map_app in I. apply in_app_or in I. apply in_or_app. destruct I; [left|right; right]; assumption.
      * intro x. destruct (Nat.eq_dec x c) as [->|Nx]; [left; auto|]. right. destruct (H5 x) as [[[E|E] _]|E]; [discriminate|discriminate|].
        rewrite E, !in_app_iff, map_app, in_app_iff. cbn [In]. intuition congruence.
    + specialize (H4 eq_refl). constructor; cbn.
      * destruct (Nat.leb n (c + 1)) eqn:E; [exact Hn|apply Nat.leb_gt in E; lia].
      * rewrite map_app. cbn [map fst]. apply NoDup_Add with (a := c) (l := map fst w); [|auto]. rewrite <- (app_nil_r (map fst w)) at 1. apply Add_app.
      * intros x I. rewrite map_app in I. apply in_app_or in I. destruct I as [I|[<-|[]]]; auto.
      * discriminate.
      * intro x. right. rewrite map_app, in_app_iff. cbn [map fst In]. destruct (Nat.eqb x c) eqn:E.
        -- apply Nat.eqb_eq in E. subst. split; auto.
        -- apply Nat.eqb_neq in E. destruct (H5 x) as [[_ E2]|E2]; [congruence|]. rewrite E2. intuition congruence.
    + constructor; cbn; auto. intro x. destruct (H5 x) as [[_ E]|E]; auto.
    + assert (M : map fst (w1 ++ (s, false) :: w2) = map fst (w1 ++ (s, true) :: w2)) by (rewrite !map_app; reflexivity).
      constructor; cbn; rewrite ?M; auto.
Qed.
Definition running (s : server) : list (nat * bool) := filter snd (workers s).
(* At every point of every schedule: no two threads share a slot, at most max_threads are
   running, and a slot is used again only when its thread was joined. *)
Theorem C44_threads : forall max_threads s, 0 < max_threads -> ssteps max_threads started s ->
  NoDup (map fst (workers s)) /\ length (running s) <= length (workers s) <= max_threads /\
  (md s = Joined -> ~ In (current s) (map fst (workers s))).
Proof.
  intros n s Hn H. destruct (inv_steps Hn H) as [H1 H2 H3 H4 H5]. split; [exact H2|]. split; [|exact H4]. split.
  - unfold running. clear. induction (workers s) as [|[x b] l IH]; [reflexivity|]. cbn [filter snd]. destruct b; cbn [length]; lia.
  - rewrite <- (map_length fst), <- (seq_length n 0). apply NoDup_incl_length; [exact H2|]. intros x I. apply in_seq. specialize (H3 x I). lia.
Qed.
Print Assumptions C44_threads.
(* the server does not get stuck: when the thread of the slot has finished, the pending
   connection is taken *)
Theorem C44_progress : forall max_threads s, 0 < max_threads -> ssteps max_threads started s -> md s = Accepted ->
  ~ In (current s, true) (workers s) -> exists s', sstep max_threads s s' /\ md s' = Joined.
Proof.
  intros n s Hn H Hm Hr. destruct (inv_steps Hn H) as [H1 H2 H3 H4 H5]. destruct s as [m c i w]. cbn [md current initialized workers] in *. subst m.
  destruct (H5 c) as [[[E|E] _]|E]; [discriminate|discriminate|]. destruct (i c) eqn:Ei.
  - assert (I : In c (map fst w)) by (apply E; reflexivity). apply in_map_iff in I. destruct I as ([x b] & Ex & I). cbn [fst] in Ex. subst x.
    destruct b; [contradiction|]. apply in_split in I. destruct I as (w1 & w2 & ->). eexists. split; [apply S_join; exact Ei|reflexivity].
  - eexists. split; [apply S_first; exact Ei|reflexivity].
Qed.
Print Assumptions C44_progress.
(* but it waits for that thread and no other: a slow request blocks the server although
   another slot is free *)
Theorem C44_blocked : exists s, ssteps 2 started s /\ md s = Accepted /\ In (1, false) (workers s) /\ length (running s) = 1 /\
  forall s', sstep 2 s s' -> md s' = Accepted /\ running s' = [].
Proof.
  set (i1 := fun x => if Nat.eqb x 0 then true else false). set (i2 := fun x => if Nat.eqb x 1 then true else i1 x).
  exists (Server Accepted 0 i2 [(0, true); (1, false)]). split; [|].
  - eapply SS_step; [|apply S_accept]. eapply SS_step; [|exact (@S_finish 2 Idle 0 i2 [(0, true)] [] 1)].
    eapply SS_step; [|exact (@S_create 2 1 i1 [(0, true)])]. eapply SS_step; [|apply S_first; reflexivity]. eapply SS_step; [|apply S_accept].
    eapply SS_step; [|exact (@S_create 2 0 (fun _ => false) [])]. eapply SS_step; [|apply S_first; reflexivity]. eapply SS_step; [|apply S_accept]. apply SS_refl.
  - split; [reflexivity|]. split; [right; left; reflexivity|]. split; [reflexivity|]. intros s' H. inversion H; subst.
    + discriminate.
    + destruct w1 as [|x [|y [|z w1]]]; try discriminate.
    + destruct w1 as [|x [|y [|z w1]]]; try discriminate. cbn [app] in *. injection H4 as -> ->. split; reflexivity.
Qed.
Print Assumptions C44_blocked.

(* ---------- C61: every request line is answered ---------- *)
Lemma split3 m t r : ~ In SP m -> ~ In SP t -> str_split (m ++ [SP] ++ t ++ [SP] ++ r) SP 3 = [m; t; r].
Proof.
  intros Hm Ht. assert (G : forall n p, n < 3 -> ~ In SP p -> forall tok rest, split_go SP 3 n tok (p ++ rest) = split_go SP 3 n (tok ++ p) rest).
  { intros n p Hn. induction p as [|c p IH]; intros Hp tok rest; [rewrite app_nil_r; reflexivity|]. cbn [app split_go].
    assert (E : (c == SP) = false) by (apply eqb_neq; intros ->; apply Hp; left; reflexivity). rewrite E. cbn [andb].
    rewrite IH by (intro; apply Hp; right; assumption). rewrite <- app_assoc. reflexivity. }
  assert (L : forall p tok, split_go SP 3 2 tok p = [tok ++ p]).
  { induction p as [|c p IH]; intro tok; cbn [split_go]; [rewrite app_nil_r; reflexivity|].
    change (Nat.eqb 3 0 || Nat.ltb (2 + 1) 3) with false. rewrite andb_false_r, IH, <- app_assoc. reflexivity. }
  assert (U : forall x, x <> [] -> str_split x SP 3 = split_go SP 3 0 [] x) by (intros [|a b] H; [contradiction|reflexivity]).
  rewrite U by (destruct m; discriminate). rewrite G by (try exact Hm; lia). cbn [app split_go]. rewrite eqb_refl. cbn [andb orb Nat.eqb Nat.ltb Nat.leb Nat.add].
  f_equal. rewrite G by (try exact Ht; lia). cbn [app split_go]. rewrite eqb_refl. cbn [andb orb Nat.eqb Nat.ltb Nat.leb Nat.add]. f_equal. apply (L r []).
Qed.
Lemma cut_space (s : bytes) : (~ In SP s) \/ exists a b, s = a ++ [SP] ++ b /\ ~ In SP a.
Proof.
  induction s as [|x s IH]; [left; intros []|]. destruct (ascii_dec x SP) as [->|N].
  - right. exists [], s. split; [reflexivity|intros []].
  - destruct IH as [H|(a & b & -> & H)].
    + left. intros [E|E]; [congruence|contradiction].
    + right. exists (x :: a), b. split; [reflexivity|]. intros [E|E]; [congruence|contradiction].
Qed.
(* a request line has a method, a target and the rest, separated by single spaces *)
Definition request (line m t r : bytes) : Prop := line = m ++ [SP] ++ t ++ [SP] ++ r /\ ~ In SP m /\ ~ In SP t.
Lemma split_inv line m t r : str_split line SP 3 = [m; t; r] -> request line m t r.
Proof.
  intro E. pose proof (split_join line SP 3) as J. pose proof (split_pieces line SP 3) as P. rewrite E in J, P.
  cbn [strv_join app removelast] in *. rewrite app_nil_r in J. inversion P as [|? ? P1 P2]; subst. inversion P2; subst.
  split; [reflexivity|auto].
Qed.
Section C61.
Variables (realpath : bytes -> option bytes) (enoent : bytes -> bool) (stat : bytes -> option bool) (access : bytes -> bool) (contents : bytes -> option bytes).
Notation handle := (handle_request realpath enoent stat access contents).
(* Exactly the requests with an empty target crash the server *)
Theorem C61_crashes_partial : forall docroot line, handle docroot line = UB <-> exists rest, line = B "GET  " ++ rest.
Proof.
  intros docroot line. split.
  - unfold handle_request. destruct line as [|c line]; [discriminate|]. destruct (str_split (c :: line) SP 3) as [|m [|t [|r [|]]]] eqn:E; try discriminate.
    apply split_inv in E. destruct E as (E & H1 & H2). destruct (beq m (B "GET")) eqn:Em; [|discriminate]. apply beq_eq in Em. cbn [negb].
    destruct t as [|x t].
    + intros _. exists r. rewrite E, Em. reflexivity.
    + unfold str_split. destruct (split_go _ 2 0 [] (x :: t)) eqn:Es; [exfalso; exact (split_go_nonempty Es)|discriminate].
  - intros (rest & ->). change (B "GET  " ++ rest) with (B "GET" ++ [SP] ++ [] ++ [SP] ++ rest).
    unfold handle_request. destruct (B "GET" ++ [SP] ++ [] ++ [SP] ++ rest) as [|c l] eqn:E; [discriminate|]. rewrite <- E.
    rewrite split3 by (intro I; vm_compute in I; intuition discriminate). reflexivity.
Qed.
Theorem C61_refuted : exists docroot line, handle docroot line = UB.
Proof. exists (B "/srv/www"), (B "GET  HTTP/1.0"). apply C61_crashes_partial. exists (B "HTTP/1.0"). reflexivity. Qed.
(* What is answered to any other line. *)
Theorem C61_answers : forall docroot line,
  (line = [] /\ handle docroot line = Ok Nothing) \/
  (line <> [] /\ (forall m t r, ~ request line m t r) /\ handle docroot line = Ok (Error 400 (B "Bad Request"))) \/
  (exists m t r, request line m t r /\
     (m <> B "GET" /\ handle docroot line = Ok (Error 405 (B "Method Not Allowed")) \/
      m = B "GET" /\ t = [] /\ handle docroot line = UB \/
      m = B "GET" /\ exists p q, (t = p \/ t = p ++ B "?" ++ q) /\ ~ In "?"%char p /\
        handle docroot line = Ok (serve realpath enoent stat access contents docroot (cstr (urldecode p))))).
Proof.
  intros docroot line. destruct line as [|c line]; [left; split; reflexivity|]. right.
  set (l := c :: line). assert (Hl : l <> []) by discriminate.
  assert (U : forall m t r, str_split l SP 3 = [m; t; r] -> handle docroot l =
     if negb (beq m (B "GET")) then Ok (Error 405 (B "Method Not Allowed"))
     else match str_split t "?"%char 2 with [] => UB | p :: _ => Ok (serve realpath enoent stat access contents docroot (cstr (urldecode p))) end).
  { intros m t r E. unfold handle_request. fold l. unfold l at 1. rewrite E. reflexivity. }
  destruct (cut_space l) as [N|(m & b & E & Hm)].
  - left. split; [exact Hl|]. split.
    + intros m t r (-> & _ & _). apply N. apply in_or_app. right. left. reflexivity.
    + unfold handle_request. fold l. unfold l at 1.
      assert (G : forall s tok n, ~ In SP s -> split_go SP 3 n tok s = [tok ++ s]).
      { induction s as [|x s IH]; intros tok n Hs; cbn [split_go]; [rewrite app_nil_r; reflexivity|].
        assert (Ex : (x == SP) = false) by (apply eqb_neq; intros ->; apply Hs; left; reflexivity). rewrite Ex. cbn [andb].
        rewrite IH by (intro; apply Hs; right; assumption). rewrite <- app_assoc. reflexivity. }
      unfold l in *. unfold str_split. rewrite G by exact N. reflexivity.
  - destruct (cut_space b) as [N|(t & r & Eb & Ht)].
    + left. split; [exact Hl|]. split.
      * intros m' t' r' (E' & H1 & H2). rewrite E in E'. apply N.
        assert (K : forall x y u v, ~ In SP x -> ~ In SP u -> x ++ [SP] ++ y = u ++ [SP] ++ v -> x = u /\ y = v).
        { induction x as [|a x IH]; intros y u v Hx Hu Ex; destruct u as [|d u]; cbn [app] in Ex.
          - injection Ex as Ex. auto.
          - exfalso. apply Hu. left. congruence.
          - exfalso. apply Hx. left. congruence.
          - injection Ex as -> Ex. destruct (IH y u v) as [-> ->]; [intro; apply Hx; right; assumption|intro; apply Hu; right; assumption|exact Ex|]. auto. }
        apply K in E'; [|assumption|assumption]. destruct E' as [_ ->]. apply in_or_app. right. left. reflexivity.
      * assert (Es : str_split l SP 3 = [m; b]).
        { rewrite E. assert (G : forall n p, ~ In SP p -> forall tok rest, split_go SP 3 n tok (p ++ rest) = split_go SP 3 n (tok ++ p) rest).
          { intros n p. induction p as [|x p IH]; intros Hp tok rest; [rewrite app_nil_r; reflexivity|]. cbn [app split_go].
            assert (Ex : (x == SP) = false) by (apply eqb_neq; intros ->; apply Hp; left; reflexivity). rewrite Ex. cbn [andb].
            rewrite IH by (intro; apply Hp; right; assumption). rewrite <- app_assoc. reflexivity. }
          assert (V : forall x, x <> [] -> str_split x SP 3 = split_go SP 3 0 [] x) by (intros [|a1 a2] Hx; [contradiction|reflexivity]).
          rewrite V by (destruct m; discriminate). rewrite G by exact Hm. cbn [app split_go]. rewrite eqb_refl. cbn [andb orb Nat.eqb Nat.ltb Nat.leb Nat.add].
          f_equal. rewrite <- (app_nil_r b) at 1. rewrite G by exact N. reflexivity. }
        unfold handle_request. fold l. unfold l at 1. rewrite Es. reflexivity.
    + right. exists m, t, r. subst b. split; [split; [exact E|auto]|]. pose proof (split3 r Hm Ht) as Es. rewrite <- E in Es. rewrite (U _ _ _ Es).
      destruct (beq_spec m (B "GET")) as [Em|Em]; cbn [negb]; [|left; auto]. right. destruct t as [|x t]; [left; auto|]. right. split; [exact Em|].
      destruct (str_split (x :: t) "?"%char 2) as [|p q] eqn:Eq; [exfalso; unfold str_split in Eq; exact (split_go_nonempty Eq)|].
      pose proof (split_join (x :: t) "?"%char 2) as J. pose proof (split_pieces (x :: t) "?"%char 2) as P. 
      pose proof (@split_length (x :: t) "?"%char 2 ltac:(discriminate)) as L. rewrite Eq in J, P, L.
      exists p. destruct q as [|q1 [|q2 q]].
      * exists []. cbn [strv_join app] in J. rewrite app_nil_r in J. split; [left; auto|]. split; [|reflexivity].
        intro I. cbn [length Nat.eqb] in L. rewrite <- J in L. apply in_split in I. destruct I as (i1 & i2 & ->). unfold count_sep in L. rewrite filter_app, app_length in L. cbn [filter] in L. rewrite eqb_refl in L. cbn [length] in L. lia.
      * exists q1. cbn [strv_join app] in J. rewrite app_nil_r in J. split; [right; auto|]. split; [|reflexivity]. cbn [removelast] in P. inversion P; assumption.
      * exfalso. cbn [length Nat.eqb] in L. lia.
Qed.
End C61.
Print Assumptions C61_crashes_partial.
Print Assumptions C61_refuted.
Print Assumptions C61_answers.
Example C61_ex : fs_handle (B "/srv/www") (B "POST / HTTP/1.0") = Ok (Error 405 (B "Method Not Allowed"))
  /\ fs_handle (B "/srv/www") (B "GET /") = Ok (Error 400 (B "Bad Request"))
  /\ fs_handle (B "/srv/www") (B "GET /none HTTP/1.0") = Ok (Error 404 (B "Not Found")).
Proof. vm_compute. auto. Qed.

(* ---------- C62: responses are well-formed ---------- *)
Lemma http_line_ok l t : ~ In CR l -> http_line (l ++ CR :: LF :: t) = Some (l, t).
Proof.
  induction l as [|c l IH]; intro H; [reflexivity|]. cbn [app http_line].
  assert (E : (c =? CR)%char = false) by (apply eqb_neq; intros ->; apply H; left; reflexivity).
  assert (IH' := IH ltac:(intro; apply H; right; assumption)). rewrite E. cbn [andb].
  destruct (l ++ CR :: LF :: t) as [|d r] eqn:El; [destruct l; discriminate|]. rewrite IH'. reflexivity.
Qed.
Lemma http_line_message n l t : l <> [] -> ~ In CR l ->
  http_message (S n) (l ++ crlf ++ t) = match http_message n t with Some (ls, body) => Some (l :: ls, body) | None => None end.
Proof.
  intros Hl Hc. unfold crlf. cbn [app http_message]. rewrite http_line_ok by exact Hc. destruct l; [contradiction|reflexivity].
Qed.
Lemma decimal_no_cr n d : decimal n d -> d <> [] /\ ~ In CR d.
Proof.
  intros (H1 & H2 & _). split; [exact H1|]. intro I. rewrite Forall_forall in H2. apply H2 in I. discriminate I.
Qed.
Lemma no_cr_app a b : ~ In CR a -> ~ In CR b -> ~ In CR (a ++ b).
Proof. intros Ha Hb I. apply in_app_or in I. tauto. Qed.
Lemma type_no_cr name : ~ In CR (guess_content_type name).
Proof.
  unfold guess_content_type. assert (K : forallb (fun x => forallb (fun c => negb (c == CR)) (fst (fst x))) content_types = true) by (vm_compute; reflexivity).
  assert (D : ~ In CR (B "application/octet-stream")) by (intro I; vm_compute in I; intuition discriminate).
  destruct (get_extension name) as [ext|]; [|exact D]. revert K. generalize content_types. induction l as [|[[ct e] i] l IH]; intro K; [exact D|].
  cbn [find_type forallb fst] in *. apply andb_true_iff in K. destruct K as [K1 K2]. destruct (beq e ext); [|apply IH; exact K2].
  intro I. rewrite forallb_forall in K1. apply K1 in I. rewrite eqb_refl in I. discriminate I.
Qed.
(* the responses that [handle_request] gives *)
Definition known_error (code : nat) (reason : bytes) : Prop :=
  In (code, reason) [(400, B "Bad Request"); (403, B "Forbidden"); (404, B "Not Found"); (405, B "Method Not Allowed"); (500, B "Internal Server Error")].
Theorem C62_errors_known : forall rp en st ac co docroot line code reason,
  handle_request rp en st ac co docroot line = Ok (Error code reason) -> known_error code reason.
Proof.
  intros rp en st ac co docroot line code reason. unfold handle_request, known_error. destruct line as [|c line]; [discriminate|].
  assert (S : forall p, serve rp en st ac co docroot p = Error code reason -> In (code, reason) [(400, B "Bad Request"); (403, B "Forbidden"); (404, B "Not Found"); (405, B "Method Not Allowed"); (500, B "Internal Server Error")]).
  { intros p. unfold serve.
    assert (E4 : Error 404 (B "Not Found") = Error code reason -> In (code, reason) [(400, B "Bad Request"); (403, B "Forbidden"); (404, B "Not Found"); (405, B "Method Not Allowed"); (500, B "Internal Server Error")]) by (intro E; injection E as <- <-; cbn; tauto).
    assert (E5 : Error 500 (B "Internal Server Error") = Error code reason -> In (code, reason) [(400, B "Bad Request"); (403, B "Forbidden"); (404, B "Not Found"); (405, B "Method Not Allowed"); (500, B "Internal Server Error")]) by (intro E; injection E as <- <-; cbn; tauto).
    assert (E3 : Error 403 (B "Forbidden") = Error code reason -> In (code, reason) [(400, B "Bad Request"); (403, B "Forbidden"); (404, B "Not Found"); (405, B "Method Not Allowed"); (500, B "Internal Server Error")]) by (intro E; injection E as <- <-; cbn; tauto).
    destruct (rp _) as [x|]; [|destruct (en _); assumption]. destruct (rp docroot) as [root|]; [|assumption]. destruct (negb _); [assumption|].
    destruct (st x) as [[|]|]; [|..|assumption].
    - destruct (guess_index ac x) as [g|]; [|assumption]. destruct (negb (ac g)); [assumption|]. destruct (_ && _); [discriminate|]. destruct (co g); [discriminate|assumption].
    - destruct (negb (ac x)); [assumption|]. destruct (co x); [discriminate|assumption]. }
  destruct (str_split (c :: line) SP 3) as [|m [|t [|r [|]]]]; try (intro E; injection E as <- <-; cbn; tauto).
  destruct (negb _); [intro E; injection E as <- <-; cbn; tauto|]. destruct (str_split t _ 2) as [|p ps]; [discriminate|]. intro E. injection E as E. exact (S _ E).
Qed.
Print Assumptions C62_errors_known.
(* Every error and every file is one HTTP message whose Content-Length is the length of
   its body; the body of a file is its contents. *)
Theorem C62_message : forall r, (exists code reason, r = Error code reason /\ known_error code reason) \/ (exists name data, r = File name data) ->
  exists status ctype len body, http_message 5 (response_bytes r) = Some ([status; B "Content-Type: " ++ ctype; B "Content-Length: " ++ len; B "Connection: close"], body)
    /\ decimal (length body) len
    /\ match r with
       | Error code reason => exists d, status = B "HTTP/1.0 " ++ d ++ [SP] ++ reason /\ decimal code d /\ ctype = B "text/html" /\ body = B "<h1>" ++ reason ++ B "</h1>" ++ [LF]
       | File name data => status = B "HTTP/1.0 200 OK" /\ ctype = guess_content_type name /\ body = data
       | _ => False
       end.
Proof.
  assert (F : forall status ctype len body, ~ In CR status -> status <> [] -> ~ In CR ctype -> ~ In CR len ->
    http_message 5 (status ++ crlf ++ (B "Content-Type: " ++ ctype) ++ crlf ++ (B "Content-Length: " ++ len) ++ crlf ++ B "Connection: close" ++ crlf ++ crlf ++ body)
    = Some ([status; B "Content-Type: " ++ ctype; B "Content-Length: " ++ len; B "Connection: close"], body)).
  { intros status ctype len body H1 H2 H3 H4. rewrite http_line_message by assumption.
    rewrite http_line_message; [|discriminate|apply no_cr_app; [intro I; vm_compute in I; intuition discriminate|exact H3]].
    rewrite http_line_message; [|discriminate|apply no_cr_app; [intro I; vm_compute in I; intuition discriminate|exact H4]].
    rewrite http_line_message; [|discriminate|intro I; vm_compute in I; intuition discriminate]. reflexivity. }
  intros r [(code & reason & -> & Hk)|(name & data & ->)].
  - exists (B "HTTP/1.0 " ++ dec (N.of_nat code) ++ [SP] ++ reason), (B "text/html"), (dec (N.of_nat (length reason + 10))), (B "<h1>" ++ reason ++ B "</h1>" ++ [LF]).
    assert (Hr : ~ In CR reason).
    { unfold known_error in Hk. cbn [In] in Hk. destruct Hk as [E|[E|[E|[E|[E|[]]]]]]; injection E as _ <-; intro I; vm_compute in I; intuition discriminate. }
    pose proof (dec_decimal code) as D1. pose proof (dec_decimal (length reason + 10)) as D2. split; [|split].
    + rewrite <- F.
      * unfold response_bytes. f_equal. rewrite <- !app_assoc. reflexivity.
      * apply no_cr_app; [intro I; vm_compute in I; intuition discriminate|]. apply no_cr_app; [apply (decimal_no_cr D1)|]. apply no_cr_app; [intro I; vm_compute in I; intuition discriminate|exact Hr].
      * discriminate.
      * intro I; vm_compute in I; intuition discriminate.
      * apply (decimal_no_cr D2).
    + rewrite !app_length. change (length (B "<h1>")) with 4. change (length (B "</h1>")) with 5. change (length [LF]) with 1.
      replace (4 + (length reason + (5 + 1))) with (length reason + 10) by lia. exact D2.
    + exists (dec (N.of_nat code)). auto.
  - exists (B "HTTP/1.0 200 OK"), (guess_content_type name), (dec (N.of_nat (length data))), data. pose proof (dec_decimal (length data)) as D. split; [|split].
    + rewrite <- F.
      * unfold response_bytes. rewrite <- !app_assoc. reflexivity.
      * intro I; vm_compute in I; intuition discriminate.
      * discriminate.
      * apply type_no_cr.
      * apply (decimal_no_cr D).
    + exact D.
    + auto.
Qed.
Print Assumptions C62_message.
Example C62_ex : response_bytes (Error 404 (B "Not Found")) = B "HTTP/1.0 404 Not Found" ++ crlf ++ B "Content-Type: text/html" ++ crlf
  ++ B "Content-Length: 19" ++ crlf ++ B "Connection: close" ++ crlf ++ crlf ++ B "<h1>Not Found</h1>" ++ [LF].
Proof. vm_compute. reflexivity. Qed.
(* A redirection repeats the decoded path: line ends in it end the header. *)
Definition crlf_real (p : bytes) : option bytes := Some (if beq p (B "/srv/www") then p else B "/srv/www/d").
Theorem C62_refuted : exists rp en st ac co docroot line r lines body,
  handle_request rp en st ac co docroot line = Ok r /\ http_message 9 (response_bytes r) = Some (lines, body) /\ In (B "Set-Cookie: x/") lines.
Proof.
  exists crlf_real, (fun _ => true), (fun _ => Some true), (fun _ => true), (fun _ => Some []), (B "/srv/www"), (B "GET /d%0d%0aSet-Cookie:%20x HTTP/1.0").
  eexists. eexists. eexists. split; [vm_compute; reflexivity|]. split; [vm_compute; reflexivity|]. vm_compute. tauto.
Qed.
Print Assumptions C62_refuted.

(* ---------- C63: the request line does not depend on how it arrives ---------- *)
Lemma upto_end_app a b : upto_end (a ++ b) = if existsb ends_line a then upto_end a else upto_end a ++ upto_end b.
Proof.
  induction a as [|c a IH]; [reflexivity|]. cbn [app upto_end existsb]. destruct (ends_line c); [reflexivity|]. cbn [orb]. rewrite IH.
  destruct (existsb ends_line a); reflexivity.
Qed.
Lemma readline_full n reads : forall ended rv, Forall (fun b => length b = n) (removelast reads) ->
  readline_go n reads ended rv = if ended then rv else rv ++ upto_end (concat reads).
Proof.
  induction reads as [|b r IH]; intros ended rv H; [cbn; destruct ended; [reflexivity|rewrite app_nil_r; reflexivity]|].
  cbn [readline_go concat]. destruct r as [|b2 r].
  - cbn [readline_go concat]. rewrite app_nil_r. destruct ended; cbn [orb]; destruct (Nat.ltb _ _); try reflexivity; destruct (existsb ends_line b); reflexivity.
  - cbn [removelast] in H. inversion H as [|? ? H1 H2]; subst. rewrite Nat.ltb_irrefl. rewrite IH by exact H2. destruct ended; cbn [orb]; [reflexivity|].
    rewrite upto_end_app. destruct (existsb ends_line b); [reflexivity|]. rewrite app_assoc. reflexivity.
Qed.
(* If every read but the last fills the buffer, the line is what was sent up to the first
   CR, LF or NUL. Missing for the full property: see the refutation. *)
Theorem C63_line_partial : forall reads, Forall (fun b => length b = 2048) (removelast reads) -> readline reads = upto_end (concat reads).
Proof. intros reads H. unfold readline. rewrite readline_full by exact H. reflexivity. Qed.
Print Assumptions C63_line_partial.
Theorem C63_upto_end : forall s, Forall (fun c => ~ In c [CR; LF; NUL]) (upto_end s) /\
  ((exists c t, s = upto_end s ++ c :: t /\ In c [CR; LF; NUL]) \/ upto_end s = s).
Proof.
  induction s as [|c s (F & IH)]; [split; [constructor|right; reflexivity]|]. cbn [upto_end]. destruct (ends_line c) eqn:E.
  - split; [constructor|]. left. exists c, s. split; [reflexivity|]. unfold ends_line in E. rewrite !orb_true_iff, !eqb_true in E. cbn. intuition.
  - split; [constructor; [|exact F]; intro I; cbn [In] in I; unfold ends_line in E; rewrite !orb_false_iff, !eqb_false in E; intuition congruence|].
    destruct IH as [(d & t & E1 & E2)|E1]; [left; exists d, t; cbn [app]; rewrite <- E1; auto|right; rewrite E1; reflexivity].
Qed.
Print Assumptions C63_upto_end.
Example C63_ex : readline [B "GET /x HTTP/1.0" ++ crlf ++ B "Host: y" ++ crlf] = B "GET /x HTTP/1.0".
Proof. vm_compute. reflexivity. Qed.
(* a request line that arrives in two segments is cut *)
Theorem C63_refuted : exists reads, Forall (fun b => b <> []) reads /\ readline reads <> upto_end (concat reads).
Proof. exists [B "GET /x"; B " HTTP/1.0" ++ crlf]. split; [repeat constructor; discriminate|vm_compute; congruence]. Qed.
Print Assumptions C63_refuted.
