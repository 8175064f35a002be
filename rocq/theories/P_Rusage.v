(* The use of time and memory (C96) and docker (C97). *)
From Verif Require Import Base Utils Trie Renderer Content Loader FuncVars Rusage RusageSpec P_FuncVars.
From Coq Require Import Lia.
#[local] Open Scope Z_scope.
#[local] Arguments B : simpl never.

Lemma half n d : 0 < d -> 2 * Z.abs (round_even n d * d - n) <= d.
Proof.
  intro Hd. unfold round_even. pose proof (Z.div_mod n d ltac:(lia)) as E. pose proof (Z.mod_pos_bound n d Hd) as Hm.
  set (q := n / d) in *. set (r := n mod d) in *.
  destruct (Z.ltb_spec (2 * r) d); [|destruct (Z.ltb_spec d (2 * r)); [|destruct (Z.even q)]]; rewrite E; nia.
Qed.
Lemma double_spec a b m k : 0 < a -> 0 < b -> a < b * 2 ^ 52 -> double_div a b = (m, k) ->
  0 <= k /\ m = round_even (a * 2 ^ k) b /\ b * 2 ^ 52 <= a * 2 ^ k.
Proof.
  intros Ha Hb Hab E. unfold double_div in E. set (k0 := 52 - (Z.log2 a - Z.log2 b)) in *.
  pose proof (Z.log2_spec a Ha) as La. pose proof (Z.log2_spec b Hb) as Lb. pose proof (Z.log2_nonneg a). pose proof (Z.log2_nonneg b).
  assert (K0 : 0 <= k0).
  { assert (Z.log2 a < Z.log2 b + 53); [|lia]. apply (Z.pow_lt_mono_r_iff 2); [lia|lia|].
    replace (Z.log2 b + 53) with (Z.succ (Z.log2 b) + 52) by lia. rewrite Z.pow_add_r by lia. nia. }
  destruct (Z.ltb_spec (a * 2 ^ k0) (2 ^ 52 * b)) as [L|L]; injection E as Em Ek; (split; [lia|]; split; [congruence|]).
  - rewrite <- Ek. assert (Q : 2 ^ Z.log2 a * 2 ^ (k0 + 1) = 2 ^ Z.succ (Z.log2 b) * 2 ^ 52) by (rewrite <- !Z.pow_add_r by lia; f_equal; lia).
    assert (0 < 2 ^ (k0 + 1)) by (apply Z.pow_pos_nonneg; lia). nia.
  - rewrite <- Ek. lia.
Qed.
Lemma print_spec a b m k P : 0 < a -> 0 < b -> 0 < P -> a < b * 2 ^ 52 -> a < 2 ^ 52 -> double_div a b = (m, k) ->
  let n := round_even (m * P) (2 ^ k) in 2 * Z.abs (n * b - P * a) < b + P.
Proof.
  intros Ha Hb HP Hab Ha' E n. destruct (double_spec Ha Hb Hab E) as (K & Em & L).
  assert (P2 : 0 < 2 ^ k) by (apply Z.pow_pos_nonneg; lia).
  pose proof (@half (m * P) (2 ^ k) P2) as H1. fold n in H1. pose proof (@half (a * 2 ^ k) b Hb) as H2. rewrite <- Em in H2.
  set (w := 2 ^ k) in *. assert (Bw : b < w) by nia.
  assert (X : (n * b - P * a) * w = (n * w - m * P) * b + P * (m * b - a * w)) by ring.
  assert (2 * Z.abs ((n * b - P * a) * w) <= w * b + P * b).
  { rewrite X. pose proof (Z.abs_triangle ((n * w - m * P) * b) (P * (m * b - a * w))).
    rewrite !Z.abs_mul in *. rewrite (Z.abs_eq b), (Z.abs_eq P) in * by lia. nia. }
  rewrite Z.abs_mul, (Z.abs_eq w) in H by lia. nia.
Qed.
Lemma print_exact a j m k P : 0 < a -> 0 <= j <= 40 -> 0 < P -> a < 2 ^ j * 2 ^ 52 -> a < 2 ^ 52 -> double_div a (2 ^ j) = (m, k) ->
  let n := round_even (m * P) (2 ^ k) in 2 * Z.abs (n * 2 ^ j - P * a) <= 2 ^ j.
Proof.
  intros Ha Hj HP Hab Ha' E n. assert (Hb : 0 < 2 ^ j) by (apply Z.pow_pos_nonneg; lia).
  destruct (double_spec Ha Hb Hab E) as (K & Em & L).
  assert (P2 : 0 < 2 ^ k) by (apply Z.pow_pos_nonneg; lia).
  assert (Kj : j <= k).
  { destruct (Z.le_gt_cases j k) as [|G]; [assumption|exfalso]. assert (2 ^ k <= 2 ^ j) by (apply Z.pow_le_mono_r; lia). nia. }
  assert (Dv : a * 2 ^ k = (a * 2 ^ (k - j)) * 2 ^ j) by (rewrite <- Z.mul_assoc, <- Z.pow_add_r by lia; f_equal; f_equal; lia).
  assert (Em' : m * 2 ^ j = a * 2 ^ k).
  { rewrite Em, Dv. unfold round_even. rewrite Z.div_mul, Z.mod_mul by lia. destruct (Z.ltb_spec (2 * 0) (2 ^ j)); [reflexivity|lia]. }
  pose proof (@half (m * P) (2 ^ k) P2) as H1. fold n in H1. set (w := 2 ^ k) in *. set (b := 2 ^ j) in *.
  assert (X : (n * b - P * a) * w = (n * w - m * P) * b).
  { replace ((n * b - P * a) * w) with (n * b * w - P * (a * w)) by ring. rewrite <- Em'. ring. }
  assert (2 * Z.abs ((n * b - P * a) * w) <= w * b) by (rewrite X, Z.abs_mul, (Z.abs_eq b) by lia; nia).
  rewrite Z.abs_mul, (Z.abs_eq w) in H by lia. nia.
Qed.
Lemma float_small n : n < 2 ^ 24 -> float_of n = n.
Proof. intro H. unfold float_of. destruct (Z.ltb_spec n (2 ^ 24)); [reflexivity|lia]. Qed.
Lemma float_near n : 0 < n -> 2 ^ 24 * Z.abs (float_of n - n) <= n.
Proof.
  intro H. unfold float_of. destruct (Z.ltb_spec n (2 ^ 24)) as [L|L]; [rewrite Z.sub_diag; cbn; lia|].
  set (e := Z.log2 n - 23). pose proof (Z.log2_spec n H) as [L1 _].
  assert (He : 0 <= e) by (assert (24 <= Z.log2 n) by (apply Z.log2_le_pow2; lia); lia).
  assert (P2 : 0 < 2 ^ e) by (apply Z.pow_pos_nonneg; lia). pose proof (@half n (2 ^ e) P2) as H1.
  assert (2 ^ 23 * 2 ^ e = 2 ^ Z.log2 n) by (rewrite <- Z.pow_add_r by lia; f_equal; lia).
  change (2 ^ 24) with (2 ^ 23 * 2). nia.
Qed.

(* ---------- digits ---------- *)
Lemma value_app d c : value (d ++ [c]) = 10 * value d + (Z.of_N (nb c) - 48).
Proof. unfold value. rewrite fold_left_app. reflexivity. Qed.
Lemma digit_char n : (n < 10)%N -> In (ascii_of_N (48 + n)) (B "0123456789") /\ Z.of_N (nb (ascii_of_N (48 + n))) - 48 = Z.of_N n /\
  (n <> 0%N -> ascii_of_N (48 + n) <> "0"%char).
Proof.
  intro H. assert (C : (n = 0 \/ n = 1 \/ n = 2 \/ n = 3 \/ n = 4 \/ n = 5 \/ n = 6 \/ n = 7 \/ n = 8 \/ n = 9)%N) by lia.
  destruct C as [->|[->|[->|[->|[->|[->|[->|[->|[->| ->]]]]]]]]];
    (split; [vm_compute; tauto|]; split; [vm_compute; reflexivity|intro X; try congruence; vm_compute; discriminate]).
Qed.
Lemma dec_go_spec : forall f n acc, (n < 2 ^ N.of_nat f)%N -> f <> 0%nat ->
  exists ds, dec_go f n acc = ds ++ acc /\ Forall (fun c => In c (B "0123456789")) ds /\ value ds = Z.of_N n /\ ds <> [] /\
    (n <> 0%N -> hd NUL ds <> "0"%char) /\ ((n < 10)%N -> length ds = 1%nat).
Proof.
  induction f as [|f IH]; intros n acc Hn Hf; [congruence|]. cbn [dec_go].
  pose proof (N.mod_upper_bound n 10 ltac:(discriminate)) as Hm. destruct (digit_char Hm) as (D1 & D2 & D3).
  pose proof (N.div_mod n 10 ltac:(discriminate)) as E.
  destruct (N.eqb_spec (n / 10) 0) as [Z0|Z0].
  - exists [ascii_of_N (48 + n mod 10)]. assert (n mod 10 = n)%N by lia. split; [reflexivity|]. split; [constructor; auto|].
    split; [unfold value; cbn [fold_left]; rewrite D2; lia|]. split; [discriminate|]. split; [|reflexivity]. intro X. cbn [hd]. apply D3. lia.
  - rewrite Nnat.Nat2N.inj_succ, N.pow_succ_r' in Hn.
    assert (Hn' : (n / 10 < 2 ^ N.of_nat f)%N) by (apply N.div_lt_upper_bound; lia).
    assert (Hf' : f <> 0%nat). { intros ->. cbn in Hn. apply Z0, N.div_small. lia. }
    destruct (IH (n / 10)%N (ascii_of_N (48 + n mod 10) :: acc) Hn' Hf') as (ds & -> & I1 & I2 & I3 & I4 & _).
    exists (ds ++ [ascii_of_N (48 + n mod 10)]). split; [rewrite <- app_assoc; reflexivity|].
    split; [apply Forall_app; split; [exact I1|constructor; auto]|]. split; [rewrite value_app, I2, D2; lia|].
    split; [destruct ds; discriminate|]. split; [|intro X; exfalso; apply Z0, N.div_small, X].
    intros _. specialize (I4 Z0). destruct ds; [congruence|exact I4].
Qed.
Lemma dec_spec n : 0 <= n -> number (dec_z n) n.
Proof.
  intro H. unfold dec_z, dec.
  assert (L : (Z.to_N n < 2 ^ N.of_nat (S (N.to_nat (N.log2 (Z.to_N n)))))%N).
  { rewrite Nnat.Nat2N.inj_succ, Nnat.N2Nat.id. destruct (N.eq_dec (Z.to_N n) 0) as [->|Nz]; [reflexivity|]. apply N.log2_spec. lia. }
  destruct (dec_go_spec [] L ltac:(discriminate)) as (ds & -> & I1 & I2 & I3 & I4 & I5). rewrite app_nil_r.
  split; [exact I1|]. split; [rewrite I2; lia|]. split; [exact I3|]. intro X.
  destruct (N.eq_dec (Z.to_N n) 0) as [Z0|Nz]; [|destruct (I4 Nz X)]. specialize (I5 ltac:(lia)).
  destruct ds as [|c [|? ?]]; [congruence| |discriminate I5]. cbn in X. subst c. reflexivity.
Qed.
Lemma dec_one n : 0 <= n < 10 -> exists c, dec_z n = [c] /\ In c (B "0123456789") /\ Z.of_N (nb c) - 48 = n.
Proof.
  intro H. assert (C : n = 0 \/ n = 1 \/ n = 2 \/ n = 3 \/ n = 4 \/ n = 5 \/ n = 6 \/ n = 7 \/ n = 8 \/ n = 9) by lia.
  destruct C as [->|[->|[->|[->|[->|[->|[->|[->|[->| ->]]]]]]]]]; (eexists; split; [vm_compute; reflexivity|]; split; [vm_compute; tauto|vm_compute; reflexivity]).
Qed.
Lemma fixed3_spec x n : n = round_even (fst x * 1000) (2 ^ snd x) -> 0 <= n -> thousandths (fixed3 x) n.
Proof.
  intros E H. unfold fixed3. rewrite <- E. cbv zeta. exists (dec_z (n / 1000)), (pad3 (n mod 1000)). split; [reflexivity|].
  split; [apply dec_spec, Z.div_pos; lia|]. unfold pad3. set (r := n mod 1000).
  pose proof (Z.mod_pos_bound n 1000 ltac:(lia)) as Hr. fold r in Hr.
  destruct (@dec_one (r / 100 mod 10)) as (c1 & -> & A1 & B1); [apply Z.mod_pos_bound; lia|].
  destruct (@dec_one (r / 10 mod 10)) as (c2 & -> & A2 & B2); [apply Z.mod_pos_bound; lia|].
  destruct (@dec_one (r mod 10)) as (c3 & -> & A3 & B3); [apply Z.mod_pos_bound; lia|].
  split; [reflexivity|]. split; [cbn [app]; constructor; [exact A1|constructor; [exact A2|constructor; [exact A3|constructor]]]|]. unfold value. cbn [app fold_left]. rewrite B1, B2, B3.
  rewrite (Z.mod_small (r / 100) 10) by (split; [apply Z.div_pos; lia|apply Z.div_lt_upper_bound; lia]).
  pose proof (Z.div_mod r 10 ltac:(lia)). pose proof (Z.div_mod (r / 10) 10 ltac:(lia)) as D. rewrite Z.div_div in D by lia. change (10 * 10) with 100 in D. lia.
Qed.

Lemma cpu_spec t : 0 <= t < 2 ^ 51 -> cpu_text t (format_cpu_time t).
Proof.
  intro Ht. unfold format_cpu_time, cpu_text. destruct (Z.leb_spec 1000000 t) as [G|G].
  - right. right. split; [exact G|]. set (a := float_of t). pose proof (@float_near t ltac:(lia)) as Hf. fold a in Hf.
    assert (Ha : 0 < a < 2 ^ 52) by lia.
    destruct (double_div a 1000000) as [m k] eqn:E. pose proof (@print_spec a 1000000 m k 1000 ltac:(lia) ltac:(lia) ltac:(lia) ltac:(lia) ltac:(lia) E) as H.
    cbv zeta in H. set (n := round_even (m * 1000) (2 ^ k)) in *. assert (Hn : Z.abs (1000 * n - a) <= 500) by lia.
    exists (fixed3 (m, k)), n. split; [reflexivity|]. split; [apply fixed3_spec; [reflexivity|lia]|]. split; [lia|].
    intro L. unfold a in Hn. rewrite float_small in Hn by exact L. exact Hn.
  - destruct (Z.leb_spec 1000 t) as [G1|G1].
    + right. left. split; [lia|]. rewrite float_small by lia. destruct (double_div t 1000) as [m k] eqn:E. destruct (Z.eqb_spec (t mod 1000) 0) as [E0|E0].
      * pose proof (@print_spec t 1000 m k 1 ltac:(lia) ltac:(lia) ltac:(lia) ltac:(lia) ltac:(lia) E) as H. cbv zeta in H. rewrite Z.mul_1_r in H.
        pose proof (Z.div_mod t 1000 ltac:(lia)) as D. exists (fixed0 (m, k)). split; [reflexivity|]. left. split; [exact E0|].
        unfold fixed0. cbn [fst snd]. replace (round_even m (2 ^ k)) with (t / 1000) by lia. apply dec_spec, Z.div_pos; lia.
      * pose proof (@print_spec t 1000 m k 1000 ltac:(lia) ltac:(lia) ltac:(lia) ltac:(lia) ltac:(lia) E) as H. cbv zeta in H.
        exists (fixed3 (m, k)). split; [reflexivity|]. right. split; [exact E0|]. apply fixed3_spec; [cbn [fst snd]; lia|lia].
    + left. split; [lia|]. exists (dec_z t). split; [reflexivity|]. apply dec_spec. lia.
Qed.
Lemma memory_spec t : 0 <= t < 2 ^ 51 -> memory_text t (format_memory t).
Proof.
  intro Ht. unfold format_memory, memory_text. change (1024 * 1024) with 1048576. destruct (Z.leb_spec 1048576 t) as [G|G].
  - right. right. split; [exact G|]. set (a := float_of t). pose proof (@float_near t ltac:(lia)) as Hf. fold a in Hf.
    assert (Ha : 0 < a < 2 ^ 52) by lia.
    destruct (double_div a 1048576) as [m k] eqn:E. pose proof (@print_exact a 20 m k 1000 ltac:(lia) ltac:(lia) ltac:(lia) ltac:(lia) ltac:(lia) E) as H.
    cbv zeta in H. set (n := round_even (m * 1000) (2 ^ k)) in *. assert (Hn : Z.abs (1048576 * n - 1000 * a) <= 524288) by lia.
    exists (fixed3 (m, k)), n. split; [reflexivity|]. split; [apply fixed3_spec; [reflexivity|lia]|]. split; [lia|].
    intro L. unfold a in Hn. rewrite float_small in Hn by exact L. exact Hn.
  - destruct (Z.leb_spec 1024 t) as [G1|G1].
    + right. left. split; [lia|]. rewrite float_small by lia. destruct (double_div t 1024) as [m k] eqn:E.
      pose proof (@print_exact t 10 m k 1000 ltac:(lia) ltac:(lia) ltac:(lia) ltac:(lia) ltac:(lia) E) as H. cbv zeta in H.
      set (n := round_even (m * 1000) (2 ^ k)) in *. exists (fixed3 (m, k)), n. split; [reflexivity|].
      split; [apply fixed3_spec; [reflexivity|lia]|]. lia.
    + left. split; [lia|]. exists (dec_z t). split; [reflexivity|]. apply dec_spec. lia.
Qed.

(* ---- C96 ---- *)

(* In a page that nobody has set them for, the two variables show the time and the memory
   that the operating system counts, to the nearest of the digits shown while a float holds
   the number (16 seconds, 16 GB), and up to the precision of a float beyond. *)
Theorem C96_usage_partial : forall convert r h dt un dk g l, let o := Os (usage_text (Some r)) h dt un dk in
  let t := ru_us r * 1000000 + ru_uus r + ru_ss r * 1000000 + ru_sus r in
  0 <= t < 2 ^ 51 -> 0 <= ru_mem r < 2 ^ 51 ->
  (forall name, In name [B "BLOGC_RUSAGE_CPU_TIME"; B "BLOGC_RUSAGE_MEMORY"] -> get_variable name g l = None /\ trie_lookup g name = None) ->
  (exists txt g', format_variable convert (os_funcs o) (B "BLOGC_RUSAGE_CPU_TIME") g l None None = Ok (Some txt, g') /\ cpu_text t txt) /\
  (exists txt g', format_variable convert (os_funcs o) (B "BLOGC_RUSAGE_MEMORY") g l None None = Ok (Some txt, g') /\ memory_text (ru_mem r) txt).
Proof.
  intros convert r h dt un dk g l o t Ht Hm Hn. split.
  - destruct (Hn _ (or_introl eq_refl)) as [H1 H2].
    destruct (@C86_value convert o (B "BLOGC_RUSAGE_CPU_TIME") g l (or_introl eq_refl) H1 H2) as (g' & E).
    exists (format_cpu_time t), g'. split; [exact E|apply cpu_spec, Ht].
  - destruct (Hn _ (or_intror (or_introl eq_refl))) as [H1 H2].
    destruct (@C86_value convert o (B "BLOGC_RUSAGE_MEMORY") g l (or_intror (or_introl eq_refl)) H1 H2) as (g' & E).
    exists (format_memory (ru_mem r)), g'. split; [exact E|apply memory_spec, Hm].
Qed.
Print Assumptions C96_usage_partial.
Example C96_ex : usage_text (Some (RU 0 4000 0 0 5000)) = Some (B "4ms", B "4.883MB") /\
  usage_text (Some (RU 1 500 0 1000 1048576)) = Some (B "1.002s", B "1.000GB") /\
  usage_text (Some (RU 0 1 0 2 7)) = Some (B "3us", B "7KB") /\ usage_text (Some (RU 0 1234 0 0 1023)) = Some (B "1.234ms", B "1023KB").
Proof. vm_compute. auto. Qed.
(* Beyond, the last digit shown is not always the nearest: these 16.777501 seconds are nearer to
   16.778. *)
Theorem C96_nearest_refuted : exists t n, format_cpu_time t = B "16.777s" /\ 2 ^ 24 <= t /\ thousandths (B "16.777") n /\ Z.abs (1000 * (n + 1) - t) < Z.abs (1000 * n - t).
Proof.
  exists 16777501, 16777. split; [vm_compute; reflexivity|]. split; [lia|]. split; [|vm_compute; reflexivity].
  exists (B "16"), (B "777"). split; [reflexivity|]. split; [|split; [reflexivity|split; [|reflexivity]]].
  - split; [repeat (constructor; [vm_compute; tauto|]); constructor|]. split; [reflexivity|]. split; [discriminate|]. intro H. discriminate H.
  - repeat (constructor; [vm_compute; tauto|]). constructor.
Qed.
Print Assumptions C96_nearest_refuted.

(* ---- C97 ---- *)

Lemma has_spec s p : has s p = true <-> exists x y, s = x ++ p ++ y.
Proof.
  assert (SW : forall p s, starts_with s p = true <-> exists y, s = p ++ y).
  { clear s p. induction p as [|a p IH]; intro s; [split; [exists s; reflexivity|destruct s; reflexivity]|]. destruct s as [|b s].
    - split; [discriminate|intros (y & E); discriminate].
    - cbn. rewrite andb_true_iff, eqb_true, IH. split; [intros [-> (y & ->)]; exists y; reflexivity|].
      intros (y & E). injection E as -> ->. split; [reflexivity|exists y; reflexivity]. }
  induction s as [|c s IH]; cbn [has]; rewrite orb_true_iff, SW.
  - split; [intros [(y & E)|E]; [exists [], y; exact E|discriminate]|].
    intros ([|? ?] & y & E); [left; exists y; exact E|discriminate].
  - rewrite IH. split.
    + intros [(y & E)|(x & y & ->)]; [exists [], y; exact E|exists (c :: x), y; reflexivity].
    + intros ([|d x] & y & E); [left; exists y; exact E|right]. injection E as -> E. exists x, y. exact E.
Qed.
(* BLOGC_SYSINFO_INSIDE_DOCKER tells whether a line of /proc/1/cgroup speaks of docker. *)
Theorem C97_docker_partial : forall convert us h dt un file g l, let name := B "BLOGC_SYSINFO_INSIDE_DOCKER" in
  let o := Os us h dt un (snd (get_docker (false, false) file)) in
  get_variable name g l = None -> trie_lookup g name = None -> (forall c, file = Some c -> no_nul c) ->
  exists v g', format_variable convert (os_funcs o) name g l None None = Ok (v, g') /\ (v = Some (B "1") \/ v = None) /\
    (v = Some (B "1") <-> exists x y, file = Some (x ++ B "/docker/" ++ y)).
Proof.
  intros convert us h dt un file g l name o H1 H2 Hf.
  destruct (@C86_value convert o name g l) as (g' & E); [do 5 right; left; reflexivity|exact H1|exact H2|].
  exists (answer o name), g'. split; [exact E|].
  change (answer o name) with (if snd (get_docker (false, false) file) then Some (B "1") else None).
  destruct file as [c|]; cbn [get_docker snd].
  - rewrite (cstr_id (Hf c eq_refl)). pose proof (has_spec c (B "/docker/")) as S. destruct (has c (B "/docker/")).
    + split; [left; reflexivity|]. split; [|reflexivity]. intros _. destruct (proj1 S eq_refl) as (x & y & ->). exists x, y. reflexivity.
    + split; [right; reflexivity|]. split; [discriminate|]. intros (x & y & X). injection X as ->.
      assert (K : false = true) by (apply S; exists x, y; reflexivity). discriminate K.
  - split; [right; reflexivity|]. split; [discriminate|]. intros (x & y & X). discriminate X.
Qed.
Print Assumptions C97_docker_partial.
Example C97_ex : snd (get_docker (false, false) (Some (B "1:name=systemd:/docker/3f" ++ [LF]))) = true /\
  snd (get_docker (false, false) (Some (B "0::/init.scope" ++ [LF]))) = false /\ snd (get_docker (false, false) None) = false.
Proof. vm_compute. auto. Qed.
(* The function forgets its answer: asked again, it says no. *)
Theorem C97_again_refuted : exists file st, get_docker (false, false) file = (st, true) /\ get_docker st file = (st, false).
Proof. exists (Some (B "1:name=systemd:/docker/3f")). eexists. split; vm_compute; reflexivity. Qed.
Print Assumptions C97_again_refuted.
