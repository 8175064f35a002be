From Verif Require Import Base Utils StrBuf.

(* What each operation is documented to append. *)
Definition op_bytes (o : sb_op) : bytes :=
  match o with
  | OpLen s n => firstn n s
  | OpStr (Some s) => cstr s
  | OpStr None => []
  | OpChar c => [c]
  | OpPrintf s => cstr s
  | OpEscaped (Some s) => unescape (cstr s)
  | OpEscaped None => []
  end.
(* The caller's obligation: a length does not exceed the buffer. *)
Definition op_ok (o : sb_op) : Prop :=
  match o with OpLen s n => n <= length s | _ => True end.

(* The buffer holds exactly [x] followed by NUL, inside its block. *)
Definition holds (b : strbuf) (x : bytes) : Prop :=
  sb_len b = length x
  /\ sb_alloc b = length (sb_block b)
  /\ firstn (length x + 1) (sb_block b) = map Some (x ++ [NUL]).

Lemma holds_room b x : holds b x -> length x + 1 <= length (sb_block b).
Proof.
  intros (_ & _ & H). apply (f_equal (@length _)) in H.
  rewrite map_length, app_length, firstn_length in H. simpl in H. lia.
Qed.

(* weaker invariant that also covers the buffer before its first append *)
Definition pre_holds (b : strbuf) (x : bytes) : Prop :=
  sb_len b = length x /\ sb_alloc b = length (sb_block b)
  /\ firstn (length x) (sb_block b) = map Some x.

Lemma holds_pre b x : holds b x -> pre_holds b x.
Proof.
  intros (H1 & H2 & H3). repeat split; try assumption.
  apply (f_equal (firstn (length x))) in H3. rewrite firstn_firstn in H3.
  replace (Nat.min (length x) (length x + 1)) with (length x) in H3 by lia.
  rewrite H3, map_app, firstn_app, map_length, Nat.sub_diag. simpl.
  rewrite app_nil_r, <- (map_length Some x) at 1. apply firstn_all.
Qed.

Lemma chunk_room n : n + 1 <= ((n + 1) / CHUNK + 1) * CHUNK.
Proof.
  unfold CHUNK. pose proof (Nat.div_mod (n + 1) 128 ltac:(lia)).
  pose proof (Nat.mod_upper_bound (n + 1) 128 ltac:(lia)). lia.
Qed.

Lemma grow_spec b x n : pre_holds b x -> length x <= n ->
  let b1 := sb_grow b n in
  sb_len b1 = n /\ sb_alloc b1 = length (sb_block b1) /\ n + 1 <= length (sb_block b1)
  /\ firstn (length x) (sb_block b1) = map Some x.
Proof.
  intros (H1 & H2 & H3) Hn. unfold sb_grow.
  assert (Hxl : length x <= length (sb_block b)).
  { apply (f_equal (@length _)) in H3. rewrite map_length, firstn_length in H3. lia. }
  destruct (Nat.ltb_spec (sb_alloc b) (n + 1)) as [Hlt|Hge]; cbv zeta; cbn [sb_len sb_alloc sb_block].
  - pose proof (chunk_room n) as Hroom.
    set (a := ((n + 1) / CHUNK + 1) * CHUNK) in *. unfold blk_realloc.
    assert (Ha : firstn a (sb_block b) = sb_block b) by (apply firstn_all2; lia).
    rewrite Ha. rewrite app_length, repeat_length.
    repeat split; try lia.
    rewrite firstn_app. replace (length x - length (sb_block b)) with 0 by lia.
    simpl. rewrite app_nil_r. exact H3.
  - repeat split; try lia. exact H3.
Qed.

Lemma blk_write_ok blk off x : off + length x <= length blk ->
  blk_write blk off x = Ok (firstn off blk ++ map Some x ++ skipn (off + length x) blk).
Proof. intro H. unfold blk_write. apply Nat.leb_le in H. rewrite H. reflexivity. Qed.

Lemma blk_write_length blk off x blk' : blk_write blk off x = Ok blk' -> length blk' = length blk.
Proof.
  unfold blk_write. destruct (Nat.leb_spec (off + length x) (length blk)) as [H|H]; intro E; inversion E.
  rewrite !app_length, map_length, firstn_length, skipn_length. lia.
Qed.

(* the common write sequence: bytes then NUL *)
Lemma write_holds b1 x y :
  sb_len b1 = length x + length y -> sb_alloc b1 = length (sb_block b1) ->
  length x + length y + 1 <= length (sb_block b1) ->
  firstn (length x) (sb_block b1) = map Some x ->
  exists b', (do blk1 <- blk_write (sb_block b1) (length x) y ;
              do blk2 <- blk_write blk1 (sb_len b1) [NUL] ;
              Ok (SB blk2 (sb_len b1) (sb_alloc b1))) = Ok b' /\ holds b' (x ++ y).
Proof.
  intros Hlen Hal Hroom Hx.
  rewrite blk_write_ok by lia. cbn [rbind].
  set (blk1 := firstn (length x) (sb_block b1) ++ map Some y
               ++ skipn (length x + length y) (sb_block b1)).
  assert (Hl1 : length blk1 = length (sb_block b1)).
  { unfold blk1. rewrite !app_length, map_length, firstn_length, skipn_length. lia. }
  assert (Hp1 : firstn (length x + length y) blk1 = map Some (x ++ y)).
  { unfold blk1. rewrite Hx, app_assoc, <- map_app.
    rewrite firstn_app, map_length, app_length, Nat.sub_diag. simpl.
    rewrite app_nil_r. apply firstn_all2. rewrite map_length, app_length. lia. }
  rewrite blk_write_ok by (simpl; lia). cbn [rbind].
  eexists. split; [reflexivity|].
  repeat split; cbn [sb_len sb_alloc sb_block].
  - rewrite app_length. lia.
  - rewrite !app_length, firstn_length, skipn_length. simpl. lia.
  - rewrite app_length, Hlen, Hp1. simpl length. rewrite app_assoc, <- map_app.
    rewrite firstn_app. rewrite map_length, !app_length. simpl length.
    replace (length x + length y + 1 - (length x + length y + 1)) with 0 by lia.
    simpl. rewrite app_nil_r. apply firstn_all2. rewrite map_length, !app_length. simpl. lia.
Qed.

Lemma append_len_holds b x s n : pre_holds b x -> n <= length s ->
  exists b', sb_append_len b s n = Ok b' /\ holds b' (x ++ firstn n s).
Proof.
  intros Hp Hn. unfold sb_append_len.
  destruct (Nat.ltb_spec (length s) n) as [H|_]; [lia|].
  destruct Hp as (H1 & H2 & H3) eqn:Ep. clear Ep.
  destruct (@grow_spec b x (length x + n)) as (G1 & G2 & G3 & G4);
    [repeat split; assumption|lia|].
  cbv zeta. rewrite H1.
  assert (Hf : length (firstn n s) = n) by (rewrite firstn_length; lia).
  apply write_holds; try rewrite Hf; assumption.
Qed.

Lemma append_c_holds b x c : holds b x ->
  exists b', sb_append_c b c = Ok b' /\ holds b' (x ++ [c]).
Proof.
  intro Hh. apply holds_pre in Hh. unfold sb_append_c.
  destruct (@grow_spec b x (length x + 1)) as (G1 & G2 & G3 & G4); [exact Hh|lia|].
  cbv zeta. destruct Hh as (H1 & _ & _). rewrite H1.
  apply write_holds; assumption.
Qed.

Lemma append_holds b x s : pre_holds b x ->
  exists b', sb_append b s = Ok b' /\ holds b' (x ++ match s with Some s => cstr s | None => [] end).
Proof.
  intro Hp. unfold sb_append.
  destruct (@append_len_holds b x (match s with Some s => cstr s | None => [] end) _ Hp (le_n _))
    as (b' & E & H).
  exists b'. rewrite firstn_all in H. split; assumption.
Qed.

Lemma append_escaped_holds s : forall b x esc, holds b x ->
  exists b', sb_append_escaped_go b esc s = Ok b' /\ holds b' (x ++ unescape_go esc s).
Proof.
  induction s as [|c s IH]; intros b x esc Hh; simpl.
  - exists b. rewrite app_nil_r. auto.
  - destruct ((c == BSL) && negb esc).
    + apply IH. exact Hh.
    + destruct (@append_c_holds b x c Hh) as (b1 & E & H1). rewrite E. cbn [rbind].
      destruct (IH b1 (x ++ [c]) false H1) as (b2 & E2 & H2).
      exists b2. split; [exact E2|]. rewrite <- app_assoc in H2. exact H2.
Qed.

Lemma do_holds b x o : holds b x -> op_ok o ->
  exists b', sb_do b o = Ok b' /\ holds b' (x ++ op_bytes o).
Proof.
  intros Hh Ho. pose proof (holds_pre Hh) as Hp. destruct o as [s n|s|c|s|s]; simpl in *.
  - apply append_len_holds; assumption.
  - destruct (@append_holds b x s Hp) as (b' & E & H). exists b'. destruct s; auto.
  - apply append_c_holds. exact Hh.
  - destruct (@append_holds b x (Some s) Hp) as (b' & E & H). exists b'. auto.
  - destruct s as [s|]; simpl.
    + apply append_escaped_holds. exact Hh.
    + exists b. rewrite app_nil_r. auto.
Qed.

Lemma new_holds : exists b, sb_new = Ok b /\ holds b [].
Proof.
  destruct (@append_holds (SB [] 0 0) [] (Some [])) as (b & E & H).
  - repeat split; reflexivity.
  - exists b. auto.
Qed.

Lemma run_holds ops : forall b x, holds b x -> Forall op_ok ops ->
  exists b', sb_run b ops = Ok b' /\ holds b' (x ++ concat (map op_bytes ops)).
Proof.
  induction ops as [|o ops IH]; intros b x Hh Ho; simpl.
  - exists b. rewrite app_nil_r. auto.
  - inversion Ho; subst. destruct (@do_holds b x o Hh H1) as (b1 & E & Hb1).
    rewrite E. cbn [rbind]. destruct (IH b1 _ Hb1 H2) as (b2 & E2 & Hb2).
    exists b2. split; [exact E2|]. rewrite <- app_assoc in Hb2. exact Hb2.
Qed.

Lemma sb_program ops : Forall op_ok ops ->
  exists b, (do b0 <- sb_new ; sb_run b0 ops) = Ok b /\ holds b (concat (map op_bytes ops)).
Proof.
  intro Ho. destruct new_holds as (b0 & E & H). rewrite E. cbn [rbind].
  apply (@run_holds ops b0 [] H Ho).
Qed.
