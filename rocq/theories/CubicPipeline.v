(** An upper bound on the CUBIC window in a running pipeline. *)
From Verif Require Import Base PipelineBase PipelineSpec ProgressSpec AdaptiveModel AdaptiveWindow AdaptiveTimed AdaptiveProgress AdaptiveLive AdaptiveEnd Double WindowModel WindowProofs WindowTheorems
  CubicRunSpec CubicUpperSpec CubicUpper CubicUpper2 CubicProgress.
From Coq Require Import Reals Lra.
From Flocq Require Import Core BinarySingleNaN.
Local Open Scope R_scope.
Local Notation P2 := (bpow radix2).

Lemma cubic_pipeline_upper R cbrt pow3 o (r0 : R) srtt rto sample backoff C es :
  root_like cbrt -> cube_like pow3 -> cubic_sane o -> cubic_moderate o -> (forall r, usable_rtt (srtt r)) ->
  let s := a_run (cubic_policy cbrt pow3 o r0 srtt rto sample backoff) C es in
  (a_now s <= 1000000000000000)%Z ->
  (Z.of_nat (length (filter (fun x => match x with OWindow _ => true | _ => false end) (a_history s))) <= 4398046511104)%Z ->
  is_finite (cw_cwnd (a_cwnd s)) = true /\ B2R (cw_cwnd (a_cwnd s)) < P2 60 /\
  forall z, In (OWindow z) (a_history s) -> (1 <= z < 1152921504606846976)%Z.
Proof.
  intros Hr Hc Hs Hm Hrtt s Hnow Hn. unfold a_history in Hn. rewrite filter_length_rev, <- wins_length in Hn.
  set (Q := fun (n : nat) t w => (Z.of_nat n <= 4398046511104)%Z -> (t <= 1000000000000000)%Z -> in_bounds o (Z.of_nat n) t w).
  destruct (win_inv_at (cubic_policy cbrt pow3 o r0 srtt rto sample backoff) C Q) with (es := es) as [H1 H2].
  - intros _ _. now apply bd_init.
  - intros n t u w H Htu Hn' Hu. apply (bd_wait o _ t); [apply H; lia|exact Htu].
  - intros n t r w H Hn' Ht. replace (Z.of_nat (S n)) with (Z.of_nat n + 1)%Z by lia. cbn [p_incr cubic_policy].
    apply bd_increase; auto; try lia. apply H; lia.
  - intros n t w H Hn' Ht. replace (Z.of_nat (S n)) with (Z.of_nat n + 1)%Z by lia. cbn [p_decr cubic_policy].
    apply bd_decrease; auto; try lia. apply H; lia.
  - fold s in H1, H2. specialize (H1 Hn Hnow).
    destruct (bounded_below o Hs (Z.of_nat (length (wins (a_tr s)))) (a_now s) (a_cwnd s)) as (G1 & G2 & _); auto; [lia|].
    split; [exact G1|]. split; [exact G2|]. intros z Hz. unfold a_history in Hz. rewrite <- in_rev in Hz. apply in_wins in Hz.
    destruct (H2 z Hz) as (n & t & w & K1 & K2 & K3 & ->).
    apply (bounded_below o Hs (Z.of_nat n) t w); [lia|lia|]. apply K3; lia.
Qed.

Lemma cubic_convertible R cbrt pow3 o (r0 : R) srtt rto sample backoff C es :
  root_like cbrt -> cube_like pow3 -> cubic_sane o -> cubic_moderate o -> (forall r, usable_rtt (srtt r)) ->
  let P := cubic_policy cbrt pow3 o r0 srtt rto sample backoff in
  let s := a_run P C es in
  (a_now s <= 1000000000000000)%Z ->
  (Z.of_nat (length (filter (fun x => match x with OWindow _ => true | _ => false end) (a_history s))) <= 4398046511104)%Z ->
  convertible (p_floor P (p_initW P)) (a_history s).
Proof.
  intros Hr Hc Hs Hm Hrtt P s Hnow Hn.
  destruct (cubic_pipeline_upper R cbrt pow3 o r0 srtt rto sample backoff C es Hr Hc Hs Hm Hrtt Hnow Hn) as (_ & _ & H). split.
  - destruct (cubic_upper cbrt pow3 o Hr Hc Hs Hm [] I ltac:(cbn; lia)) as (_ & _ & K). cbn in *. lia.
  - intros X. specialize (H _ X). lia.
Qed.
Lemma cubic_never_hangs_days R cbrt pow3 (o : cubic_opts) (r0 : R) srtt rto sample backoff (C : aconfig) (n : N) (es : list aevent) :
  root_like cbrt -> cube_like pow3 -> cubic_sane o -> cubic_moderate o -> (forall r, usable_rtt (srtt r)) ->
  let s := a_run (cubic_policy cbrt pow3 o r0 srtt rto sample backoff) C es in
  let h := a_history s in
  (a_now s <= 1000000000000000)%Z ->
  (Z.of_nat (length (filter (fun x => match x with OWindow _ => true | _ => false end) h)) <= 4398046511104)%Z ->
  honest n h -> on_track (c_maxRetries C) h -> existsb is_over h = false -> ~ In OThrow h ->
  outstanding h <> [].
Proof.
  intros Hr Hc Hs Hm Hrtt s h Hnow Hn. apply cubic_never_hangs; [exact Hs|]. now apply cubic_convertible.
Qed.

(** ** Functions that are like a cube *)
Lemma rnd_up2 z : 0 <= z -> rnd z <= z * (1 + u64f) + P2 (-1022).
Proof.
  intros Hz. pose proof u64f_bounds. pose proof (bpow_gt_0 radix2 (-1022)).
  assert (0 <= z * u64f) by (apply Rmult_le_pos; lra).
  destruct (Rle_dec (P2 (-1022)) z) as [Hc|Hc].
  - destruct (rnd_rel_pos z (or_intror Hc)) as [_ K]. lra.
  - apply Rle_trans with (rnd (P2 (-1022))); [apply rnd_le; lra|]. rewrite rnd_bpow by lia. lra.
Qed.
Lemma cube_ok : cube_like (fun x => fmul x (fmul x x)).
Proof.
  intros x Hx [X1 X2].
  assert (E : P2 65 * P2 65 = P2 130) by (rewrite <- bpow_plus; reflexivity).
  assert (E2 : P2 65 * P2 130 = P2 195) by (rewrite <- bpow_plus; reflexivity).
  assert (H65 : 1000000 <= P2 65) by (rewrite p65; lra).
  assert (H130 : 0 < P2 130) by apply bpow_gt_0. assert (H195 : 0 < P2 195) by apply bpow_gt_0.
  assert (H200 : P2 195 <= P2 200) by (apply bpow_le; lia).
  assert (Hsq : 0 <= val x * val x <= P2 130) by (rewrite <- E; split; nra).
  destruct (fmul_ok x x) as [Y1 Y2]; auto; [apply (small_lo _ 130); [lia|lra]|]. set (y := fmul x x) in *.
  assert (Hy : 0 <= val y <= P2 130). { rewrite Y2. split; [apply rnd_ge0; lra|apply rnd_le_p; [lia|lra]]. }
  assert (Hp : - P2 195 <= val x * val y <= P2 195).
  { rewrite <- E2. split; nra. }
  destruct (fmul_ok x y) as [Z1 Z2]; auto; [apply (small_lo _ 195); [lia|lra]|].
  split; [exact Z1|]. rewrite Z2. split; [apply Rle_trans with (- P2 195); [lra|apply rnd_down; [lia|lra]]|].
  destruct (Rle_dec 0 (val x)) as [Hc|Hc].
  - rewrite Rmax_right by lra. simpl. rewrite Rmult_1_r.
    pose proof (rnd_up2 _ (proj1 Hsq)) as K1. rewrite <- Y2 in K1.
    assert (Hpos : 0 <= val x * val y) by (apply Rmult_le_pos; lra). pose proof (rnd_up2 _ Hpos) as K2.
    pose proof u64f_bounds as Hu.
    assert (Ht : 0 <= P2 (-1022) <= / 1073741824). { split; [apply bpow_ge_0|]. change (/ 1073741824) with (P2 (-30)). apply bpow_le. lia. }
    set (e := P2 (-1022)) in *. clearbody e. set (u := u64f) in *. clearbody u.
    set (q := val x * val x) in *. 
    assert (K3 : val x * val y <= val x * (q * (1 + u) + e)) by (apply Rmult_le_compat_l; lra).
    assert (K4 : 0 <= val x * q) by (apply Rmult_le_pos; lra).
    set (c := val x * q) in *.
    assert (K5 : val x * (q * (1 + u) + e) = c * (1 + u) + val x * e) by (unfold c; ring).
    assert (K6 : val x * e <= 1000000 * / 1073741824) by (apply Rmult_le_compat; lra).
    assert (K7 : c * (1 + u) <= c * 1.001) by (apply Rmult_le_compat_l; lra).
    assert (K8 : val x * val y <= 1.001 * c + 0.001) by lra.
    assert (K9 : val x * val y * (1 + u) <= (1.001 * c + 0.001) * 1.001) by (apply Rmult_le_compat; lra).
    lra.
  - rewrite Rmax_left by lra. simpl. apply Rle_trans with 0; [|lra]. rewrite <- rnd_0. apply rnd_le.
    assert (0 <= - val x * val y) by (apply Rmult_le_pos; lra). lra.
Qed.
Lemma root_ok : root_like fsqrt.
Proof.
  intros x Hx [X1 X2]. pose proof (Bsqrt_correct 53 1024 _ _ mode_NE x) as (H1 & H2 & _). unfold fsqrt. rewrite H1, H2.
  split.
  - destruct x as [s|s| |s m e Hb]; try discriminate; [reflexivity|]. destruct s; [|reflexivity].
    exfalso. pose proof (F2R_lt_0 radix2 (Float radix2 (Zneg m) e) eq_refl). cbn [B2R SpecFloat.cond_Zopp] in X1. change (- Zpos m)%Z with (Zneg m) in X1. lra.
  - cbn [round_mode]. split; [apply rnd_ge0, sqrt_pos|].
    assert (K : sqrt (val x) <= Rmax 1 (val x)).
    { destruct (Rle_dec 1 (val x)).
      - rewrite Rmax_right by lra. rewrite <- (sqrt_square (val x)) at 2 by lra. apply sqrt_le_1_alt. nra.
      - rewrite Rmax_left by lra. rewrite <- sqrt_1. apply sqrt_le_1_alt. lra. }
    destruct (Rle_dec 1 (val x)).
    + rewrite Rmax_right in K by lra. apply Rle_trans with (rnd (val x)); [now apply rnd_le|rewrite rnd_val; lra].
    + rewrite Rmax_left in K by lra. apply Rle_trans with 1; [apply (rnd_le_Z _ 1); [lia|exact K]|lra].
Qed.

(** ** The default options *)
Definition default_cubic : cubic_opts := CubicOpts (f_of_Z 2) DBL_MAX (fdiv (f_of_Z 7) (f_of_Z 10)) false.
Lemma default_moderate : cubic_sane default_cubic /\ cubic_moderate default_cubic.
Proof.
  destruct (f_of_Z_exact 2) as [A1 A2]; [lia|]. destruct (f_of_Z_exact 7) as [B1 B2]; [lia|]. destruct (f_of_Z_exact 10) as [D1 D2]; [lia|].
  destruct (fdiv_ok (f_of_Z 7) (f_of_Z 10)) as [G1 G2]; auto; [lra| |].
  { rewrite B2, D2. apply (small_lo _ 0); [lia|]. change (P2 0) with 1. lra. }
  rewrite B2, D2 in G2. split; split; cbn [cu_initCwnd cu_beta default_cubic]; rewrite ?A2, ?G2; [exact A1|lra|rewrite p40; lra|].
  split; [exact G1|]. split; [apply rnd_ge0; lra|apply (rnd_le_Z _ 1); [lia|lra]].
Qed.
Lemma zero_rtt : exists cbrt pow3 o ops,
    root_like cbrt /\ cube_like pow3 /\ cubic_sane o /\ cubic_moderate o /\
    ops = [Decrease 1000000000; Increase 2000000000 0]%Z /\
    cw_cwnd (cubic_run cbrt pow3 o ops) = B754_infinity false /\
    to_int64 (cw_cwnd (cubic_run cbrt pow3 o ops)) = (-9223372036854775808)%Z.
Proof.
  exists fsqrt, (fun x => fmul x (fmul x x)), default_cubic, [Decrease 1000000000; Increase 2000000000 0]%Z.
  split; [exact root_ok|]. split; [exact cube_ok|]. destruct default_moderate as [H1 H2]. split; [exact H1|]. split; [exact H2|].
  split; [reflexivity|]. split; [|vm_compute; reflexivity]. apply B2SF_inj. vm_compute. reflexivity.
Qed.

(** ** A run without end whose window changes in the first eleven days only *)
Lemma cubic_convertible_always R cbrt pow3 o (r0 : R) srtt rto sample backoff C (f : nat -> aevent) :
  root_like cbrt -> cube_like pow3 -> cubic_sane o -> cubic_moderate o -> (forall r, usable_rtt (srtt r)) ->
  let P := cubic_policy cbrt pow3 o r0 srtt rto sample backoff in
  let s m := a_run P C (first m f) in
  let changes m := length (filter (fun x => match x with OWindow _ => true | _ => false end) (a_history (s m))) in
  (forall m, Z.of_nat (changes m) <= 4398046511104)%Z ->
  (forall m, changes (S m) <> changes m -> a_now (s (S m)) <= 1000000000000000)%Z ->
  forall m, convertible (p_floor P (p_initW P)) (a_history (s m)).
Proof.
  intros Hr Hc Hs Hm Hrtt P s changes Hn Hd m. induction m as [|m IH].
  - apply cubic_convertible; auto; [|apply (Hn O)]. change (first 0 f) with (@nil aevent). rewrite now_zero. lia.
  - destruct (Nat.eq_dec (changes (S m)) (changes m)) as [E|E]; [|apply cubic_convertible; auto; [exact (Hd m E)|exact (Hn (S m))]].
    destruct IH as [I1 I2]. split; [exact I1|]. intros X.
    assert (Es : s (S m) = a_step P C (s m) (f m)).
    { unfold s, a_run. replace (S m) with (m + 1)%nat by lia. rewrite first_app, fold_left_app. reflexivity. }
    destruct (wk_step C P (s m) (f m)) as [(l & El) _]. rewrite <- Es in El.
    assert (Hh : a_history (s (S m)) = a_history (s m) ++ rev l) by (unfold a_history; rewrite El, rev_app_distr; reflexivity).
    unfold changes in E. rewrite Hh, filter_app, app_length in E. rewrite Hh, in_app_iff in X. destruct X as [X|X]; [contradiction|].
    assert (K : In (OWindow (-9223372036854775808)) (filter (fun x => match x with OWindow _ => true | _ => false end) (rev l))) by (apply filter_In; auto).
    destruct (filter _ (rev l)); [contradiction|cbn in E; lia].
Qed.
