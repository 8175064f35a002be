(* What a request costs, what its client gets and what is logged about it. *)
From Verif Require Import Base Utils UtilsProofs Content Runserver ErrPrint ErrPrintSpec Handle HandleSpec.
#[local] Arguments B : simpl never.
#[local] Arguments app : simpl nomatch.

Section Request.
Variable realpath : bytes -> option bytes.
Variable enoent : bytes -> bool.
Variable stat : bytes -> option bool.
Variable access : bytes -> bool.
Variable contents : bytes -> option bytes.
Notation run := (handle realpath enoent stat access contents).
Notation answer := (handle_request realpath enoent stat access contents).

(* the request was handled well and the client got [r] *)
Definition well (line : bytes) (r : response) (t : list hact) (l : list thing) : Prop :=
  keeps l true t = Some ([], false) /\ received t = response_bytes r /\ logged t = [(status_code (response_bytes r), line)].

Lemma file_bytes f data : file_header f (length data) ++ data ++ [] = response_bytes (File f data).
Proof. rewrite app_nil_r. unfold file_header, response_bytes. rewrite <- !app_assoc. reflexivity. Qed.

Ltac fin := split; [reflexivity|split; [cbn [received app send_error point4 point3 point2 point1 point0]; rewrite ?app_nil_r; reflexivity|reflexivity]].

Lemma file_well line path f real (slash : bool) : (real = TReal \/ real = TFound) ->
  well line (if negb (access f) then Error 500 (B "Internal Server Error") else if slash then Redirect path else
    match contents f with None => Error 500 (B "Internal Server Error") | Some d => File f d end)
    (send_file access contents line path f real slash) (match real with TFound => [TFound; TRoot; TPath; TPieces; TLine; TIp] | _ => [TRoot; TReal; TPath; TPieces; TLine; TIp] end).
Proof.
  intro R. unfold send_file, well. destruct (access f); cbn [negb]; [|destruct R as [->| ->]; fin].
  destruct slash; [destruct R as [->| ->]; fin|].
  destruct (contents f) as [d|]; [|destruct R as [->| ->]; fin].
  destruct R as [->| ->]; (split; [reflexivity|split; [|reflexivity]]); cbn [received app point4 point3 point2 point1 point0]; apply file_bytes.
Qed.

Lemma keeps_app : forall t1 t2 l c, keeps l c (t1 ++ t2) = match keeps l c t1 with Some (l', c') => keeps l' c' t2 | None => None end.
Proof.
  induction t1 as [|a t1 IH]; intros t2 l c; [reflexivity|]. change ((a :: t1) ++ t2) with (a :: (t1 ++ t2)).
  destruct a; cbn [keeps]; try apply IH; try (destruct (there l x); [apply IH|reflexivity]); try (destruct (there l x); [reflexivity|apply IH]);
    destruct c; try reflexivity; apply IH.
Qed.
Lemma received_app t1 t2 : received (t1 ++ t2) = received t1 ++ received t2.
Proof. induction t1 as [|a t1 IH]; [reflexivity|]. change ((a :: t1) ++ t2) with (a :: (t1 ++ t2)). destruct a; cbn [received]; rewrite ?IH; try reflexivity. rewrite app_assoc. reflexivity. Qed.
Lemma logged_app t1 t2 : logged (t1 ++ t2) = logged t1 ++ logged t2.
Proof. induction t1 as [|a t1 IH]; [reflexivity|]. change ((a :: t1) ++ t2) with (a :: (t1 ++ t2)). destruct a; cbn [logged]; rewrite ?IH; reflexivity. Qed.
(* calls before, that neither send nor log *)
Lemma well_after line r t0 t l l' : keeps l true t0 = Some (l', true) -> received t0 = [] -> logged t0 = [] ->
  well line r t l' -> well line r (t0 ++ t) l.
Proof.
  intros K R L (W1 & W2 & W3). unfold well. rewrite keeps_app, received_app, logged_app, K, R, L. repeat split; assumption.
Qed.
Ltac before := eapply well_after; [reflexivity..|].

Lemma path_well docroot line path :
  well line (serve realpath enoent stat access contents docroot path) (send_path realpath enoent stat access contents docroot line path)
    [TPath; TPieces; TLine; TIp].
Proof.
  unfold serve, send_path. cbv zeta. before. destruct (realpath (docroot ++ B "/" ++ path)) as [rp|].
  2:{ change (HFree TAbs :: ?x) with ([HFree TAbs] ++ x). before. destruct (enoent _); unfold well; fin. }
  before. destruct (realpath docroot) as [rr|]; [|unfold well; fin]. before.
  destruct (negb (beq (firstn (length rr) rp) rr)); [unfold well; fin|]. change (HUse TReal :: ?x) with ([HUse TReal] ++ x). before.
  destruct (stat rp) as [[|]|]; [| |unfold well; fin].
  - change (HUse TReal :: ?x) with ([HUse TReal] ++ x). before. destruct (guess_index access rp) as [f|]; [|unfold well; fin].
    before. exact (@file_well line path f TFound _ (or_intror eq_refl)).
  - exact (@file_well line path rp TReal false (or_introl eq_refl)).
Qed.

(* ---------- C104 ---------- *)
(* every request line that is not empty: nothing is used that is not there, everything is freed and the
   connection closed once, after all was sent; the client gets the response of the request (C61, C62),
   and one line is logged, with the status the client got and the line it sent *)
Theorem C104_request : forall docroot line t, line <> [] -> run docroot line = Ok t ->
  exists r, answer docroot line = Ok r /\ r <> Nothing /\
    keeps [TIp] true t = Some ([], false) /\
    received t = response_bytes r /\
    logged t = [(status_code (received t), line)].
Proof.
  intros docroot line t N H.
  assert (J : forall x y : list hact, Ok x = Ok y -> y = x) by congruence.
  assert (G : exists r, answer docroot line = Ok r /\ r <> Nothing /\ well line r t [TIp]).
  { unfold handle, handle_request in *. cbv zeta in H. destruct line as [|c line0] eqn:El; [congruence|]. rewrite <- El in *. clear N El c line0.
    destruct (str_split line SP 3) as [|m [|tg [|x [|y z]]]];
      try (apply J in H; subst t; eexists; split; [reflexivity|split; [discriminate|]]; before; unfold well; fin).
    destruct (negb (beq m (B "GET"))); [apply J in H; subst t; eexists; split; [reflexivity|split; [discriminate|]]; before; unfold well; fin|].
    destruct (str_split tg "?"%char 2) as [|p q]; [discriminate H|]. apply J in H; subst t. eexists. split; [reflexivity|]. split.
    - unfold serve. cbv zeta. repeat match goal with |- context [match ?x with _ => _ end] => destruct x end; discriminate.
    - before. before. apply path_well. }
  destruct G as (r & E & D & W1 & W2 & W3). exists r. rewrite W2. repeat split; assumption.
Qed.

(* it goes wrong exactly where the response does (C61_crashes_partial) *)
Theorem C104_undefined : forall docroot line, run docroot line = UB <-> answer docroot line = UB.
Proof.
  intros docroot line. unfold handle, handle_request. destruct line as [|c l]; [split; discriminate|].
  destruct (str_split (c :: l) SP 3) as [|m [|tg [|x [|y z]]]]; try (split; discriminate).
  destruct (negb (beq m (B "GET"))); [split; discriminate|]. destruct (str_split tg "?"%char 2); split; (reflexivity || discriminate).
Qed.

(* the full claim has no exception for empty lines: false, the line is not freed *)
Theorem C104_empty_refuted : forall docroot, exists t, run docroot [] = Ok t /\ keeps [TIp] true t = Some ([TLine], false) /\
  received t = [] /\ logged t = [].
Proof. intro docroot. eexists. repeat split. Qed.
End Request.
Print Assumptions C104_request.
Print Assumptions C104_undefined.
Print Assumptions C104_empty_refuted.

(* a directory without slash is redirected, a file that is there is sent *)
Definition ex_real (p : bytes) : option bytes :=
  if beq p (B "/www") then Some (B "/www") else if beq p (B "/www//d") then Some (B "/www/d") else if beq p (B "/www//a.css") then Some (B "/www/a.css") else None.
Definition ex_run (line : bytes) : res (list hact) :=
  handle ex_real (fun _ => true) (fun p => Some (beq p (B "/www/d"))) (fun _ => true) (fun _ => Some (B "p{}")) (B "/www") line.
Example C104_example : exists t, ex_run (B "GET /a.css HTTP/1.0") = Ok t /\
  logged t = [(200, B "GET /a.css HTTP/1.0")] /\
  received t = B "HTTP/1.0 200 OK" ++ crlf ++ B "Content-Type: text/css" ++ crlf ++ B "Content-Length: 3" ++ crlf ++ B "Connection: close" ++ crlf ++ crlf ++ B "p{}".
Proof. eexists. repeat split. Qed.
Example C104_example_dir : exists t, ex_run (B "GET /d HTTP/1.0") = Ok t /\ logged t = [(302, B "GET /d HTTP/1.0")] /\
  keeps [TIp] true t = Some ([], false).
Proof. eexists. repeat split. Qed.
Example C104_example_missing : exists t, ex_run (B "GET /x HTTP/1.0") = Ok t /\ logged t = [(404, B "GET /x HTTP/1.0")].
Proof. eexists. repeat split. Qed.
