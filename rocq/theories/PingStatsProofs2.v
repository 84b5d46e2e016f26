(** How accurate the standard deviation of ndnping is. *)
From Verif Require Import Base TlvModel PingModel PingStatsModel PingStatsSpec Double PingStatsProofs.
From Coq Require Import Reals Lra.
From Flocq Require Import Core BinarySingleNaN Relative.
Local Open Scope R_scope.

(** the mean of the squared deviations *)
Lemma variance_eq (f : N -> R) l : l <> [] ->
  Rmean (map (fun r => (f r - Rmean (map f l))²) l) = Rmean (map (fun r => (f r)²) l) - (Rmean (map f l))².
Proof.
  intros Hl. assert (Hn : INR (length l) <> 0) by (apply not_0_INR; destruct l; [congruence|discriminate]).
  assert (HS : forall m l', Rsum (map (fun r => (f r - m)²) l') =
    Rsum (map (fun r => (f r)²) l') - 2 * m * Rsum (map f l') + INR (length l') * m²).
  { intros m l'. induction l' as [|x l' IH]; [cbn; lra|]. cbn [map]. unfold Rsum in *. cbn [fold_right]. rewrite IH.
    cbn [length]. rewrite S_INR. unfold Rsqr. ring. }
  unfold Rmean at 1 3. rewrite HS, !map_length, <- INR_IZR_INZ.
  assert (E : Rsum (map f l) = INR (length l) * Rmean (map f l)).
  { unfold Rmean. rewrite map_length, <- INR_IZR_INZ. field. exact Hn. }
  rewrite E. unfold Rsqr. field. exact Hn.
Qed.
Lemma variance_ge0 (f : N -> R) l : l <> [] -> (Rmean (map f l))² <= Rmean (map (fun r => (f r)²) l).
Proof.
  intros Hl. pose proof (variance_eq f l Hl) as E.
  assert (0 <= Rmean (map (fun r => (f r - Rmean (map f l))²) l)) by (apply rmean_ge0; intros; apply Rle_0_sqr). lra.
Qed.

Section History.
Variable h : list gobs.
Hypothesis Hpl : plausible h.
Hypothesis Hne : rtts h <> [].
Notation n := (length (rtts h)).
Notation u := u64f.
Definition E1 := Rmean (map exact_ms (rtts h)).
Definition E2 := Rmean (map (fun r => (exact_ms r)²) (rtts h)).

Lemma e1_ge0 : 0 <= E1. Proof. apply rmean_ge0. intros. apply exact_ge0. Qed.
Lemma e2_ge0 : 0 <= E2. Proof. apply rmean_ge0. intros. apply Rle_0_sqr. Qed.
Lemma m1_e1 : (1 - u) ^ 2 * E1 <= M1 h <= (1 + u) ^ 2 * E1.
Proof.
  unfold M1, E1. rewrite <- !rmean_scal. split; (apply rmean_mono; [exact Hne|]; intros r Hr; apply rtt_ms_ok; now apply (rtt_small h)).
Qed.
Lemma m2_e2 : (1 - u) ^ 4 * E2 <= M2 h <= (1 + u) ^ 4 * E2.
Proof.
  pose proof u64f_bounds as Hu. unfold M2, E2. rewrite <- !rmean_scal.
  split; (apply rmean_mono; [exact Hne|]; intros r Hr).
  all: destruct (rtt_ms_ok r (rtt_small h Hpl r Hr)) as (_ & _ & _ & _ & H1 & H2); pose proof (exact_ge0 r) as H0.
  - replace ((1 - u) ^ 4 * (exact_ms r)²) with (((1 - u) ^ 2 * exact_ms r)²) by (unfold Rsqr; ring).
    apply Rsqr_incr_1; [exact H1| |]; [apply Rmult_le_pos; [apply pow_le; lra|exact H0]|].
    eapply Rle_trans; [|exact H1]. apply Rmult_le_pos; [apply pow_le; lra|exact H0].
  - replace ((1 + u) ^ 4 * (exact_ms r)²) with (((1 + u) ^ 2 * exact_ms r)²) by (unfold Rsqr; ring).
    apply Rsqr_incr_1; [exact H2| |]; [|apply Rmult_le_pos; [apply pow_le; lra|exact H0]].
    eapply Rle_trans; [|exact H1]. apply Rmult_le_pos; [apply pow_le; lra|exact H0].
Qed.
Lemma chain a b (x y z : R) : 0 <= z ->
  (1 - u) ^ a * y <= x <= (1 + u) ^ a * y -> (1 - u) ^ b * z <= y <= (1 + u) ^ b * z ->
  (1 - u) ^ (a + b) * z <= x <= (1 + u) ^ (a + b) * z.
Proof.
  intros Hz [H1 H2] [H3 H4]. pose proof u64f_bounds as Hu. rewrite !pow_add, !Rmult_assoc. split.
  - eapply Rle_trans; [|exact H1]. apply Rmult_le_compat_l; [apply pow_le; lra|exact H3].
  - eapply Rle_trans; [exact H2|]. apply Rmult_le_compat_l; [apply pow_le; lra|exact H4].
Qed.
Lemma q_close : Rabs (val (q_of h) - E2) <= (INR n + 6) * bpow radix2 (-52) * E2.
Proof.
  destruct (q_bounds h Hpl Hne) as (_ & _ & Q). pose proof (n_big h Hpl Hne).
  replace (INR n + 6) with (INR (n + 2 + 4)) by (rewrite !plus_INR; simpl; lra).
  apply pow_close; [apply e2_ge0|rewrite !plus_INR; simpl; lra|]. apply (chain _ _ _ (M2 h)); [apply e2_ge0|exact Q|apply m2_e2].
Qed.
Lemma p_bounds2 : (1 - u) ^ (2 * n + 7) * E1² <= val (p_of h) <= (1 + u) ^ (2 * n + 7) * E1².
Proof.
  destruct (p_bounds h Hpl Hne) as (_ & _ & P). pose proof u64f_bounds as Hu. pose proof e1_ge0 as H0.
  replace (2 * n + 7)%nat with ((2 * n + 3) + 4)%nat by lia. apply (chain _ _ _ ((M1 h)²)); [apply Rle_0_sqr|exact P|].
  destruct m1_e1 as [H1 H2].
  assert (HM : 0 <= M1 h) by (eapply Rle_trans; [|exact H1]; apply Rmult_le_pos; [apply pow_le; lra|exact H0]).
  split.
  - replace ((1 - u) ^ 4 * E1²) with (((1 - u) ^ 2 * E1)²) by (unfold Rsqr; ring).
    apply Rsqr_incr_1; [exact H1|apply Rmult_le_pos; [apply pow_le; lra|exact H0]|exact HM].
  - replace ((1 + u) ^ 4 * E1²) with (((1 + u) ^ 2 * E1)²) by (unfold Rsqr; ring).
    apply Rsqr_incr_1; [exact H2|exact HM|apply Rmult_le_pos; [apply pow_le; lra|exact H0]].
Qed.
Lemma pow_close2 k x e : 0 <= e -> INR k <= 5000000000 -> (1 - u) ^ k * e <= x <= (1 + u) ^ k * e ->
  Rabs (x - e) <= INR k * bpow radix2 (-52) * e.
Proof.
  intros He Hk [H1 H2]. pose proof u64f_bounds. pose proof (pos_INR k).
  replace (bpow radix2 (-52)) with (2 * u) by (unfold u64f; simpl; lra).
  assert (Hu : u <= / 4000000000000) by (unfold u64f; simpl; lra).
  assert (Hs : 2 * INR k * u <= 1) by nra.
  pose proof (pow1m_ge k). pose proof (pow1p_le k Hs). apply Rabs_le. split; nra.
Qed.
Lemma p_close : Rabs (val (p_of h) - E1²) <= (2 * INR n + 7) * bpow radix2 (-52) * E1².
Proof.
  pose proof (n_big h Hpl Hne). replace (2 * INR n + 7) with (INR (2 * n + 7)) in * by (rewrite plus_INR, mult_INR; simpl; lra).
  apply pow_close2; [apply Rle_0_sqr|rewrite plus_INR, mult_INR; simpl; lra|apply p_bounds2].
Qed.
Lemma rnd_err x : Rabs (rnd x - x) <= u * Rabs x + bpow radix2 (-1075).
Proof.
  destruct (error_N_FLT radix2 (-1074) 53 eq_refl (fun z => negb (Z.even z)) x) as (eps & eta & H1 & H2 & _ & E).
  change (rnd x) with (round radix2 (FLT_exp (-1074) 53) (Znearest (fun z => negb (Z.even z))) x). rewrite E.
  replace (x * (1 + eps) + eta - x) with (x * eps + eta) by ring. eapply Rle_trans; [apply Rabs_triang|].
  apply Rplus_le_compat.
  - rewrite Rabs_mult, Rmult_comm. apply Rmult_le_compat_r; [apply Rabs_pos|]. eapply Rle_trans; [exact H1|].
    apply Req_le. unfold u64f. rewrite bpow_plus. change (bpow radix2 1) with 2. change (- (53))%Z with (-53)%Z. lra.
  - eapply Rle_trans; [exact H2|]. change (-1075)%Z with (-1 + -1074)%Z. rewrite (bpow_plus radix2 (-1) (-1074)). change (bpow radix2 (-1)) with (/ 2). lra.
Qed.
(** a positive double is at least 2^-1074 *)
Lemma double_ge (x : f64) : 0 < val x -> bpow radix2 (-1074) <= val x.
Proof.
  intros Hx. apply (generic_format_ge_bpow radix2 (SpecFloat.fexp 53 1024) (-1074)); [|exact Hx|apply generic_format_B2R].
  intros e. unfold SpecFloat.fexp, SpecFloat.emin. lia.
Qed.
(** the mean of the squares cannot be tiny *)
Lemma e2_big : E2 = 0 \/ bpow radix2 (-100) <= E2.
Proof.
  destruct (Forall_Exists_dec (fun r => r = 0%N) (fun r => N.eq_dec r 0) (rtts h)) as [H|H].
  - left. unfold E2. rewrite (map_ext_in _ (fun _ => 0)); [now apply rmean_const|].
    intros r Hr. rewrite (proj1 (Forall_forall _ _) H r Hr). unfold exact_ms, Rsqr. simpl. lra.
  - right. apply Exists_exists in H. destruct H as (r & Hr & Hz).
    pose proof (n_big h Hpl Hne) as Hn. unfold E2, Rmean. rewrite map_length, (n_INR h).
    assert (Hs : / 1000000000000 <= Rsum (map (fun r => (exact_ms r)²) (rtts h))).
    { clear -Hr Hz. induction (rtts h) as [|x l IH]; [destruct Hr|]. cbn [map]. unfold Rsum in *. cbn [fold_right].
      assert (H0 : 0 <= fold_right Rplus 0 (map (fun r => (exact_ms r)²) l)).
      { apply (rsum_ge0 (map (fun r => (exact_ms r)²) l)). rewrite Forall_map. apply Forall_forall. intros. apply Rle_0_sqr. }
      destruct Hr as [->|Hr].
      - assert (/ 1000000 <= exact_ms r). { unfold exact_ms. assert (1 <= IZR (Z.of_N r)) by (apply (IZR_le 1); lia). lra. }
        change ((exact_ms r)²) with (exact_ms r * exact_ms r). assert (/ 1000000 * / 1000000 <= exact_ms r * exact_ms r) by (apply Rmult_le_compat; lra). lra.
      - specialize (IH Hr). pose proof (Rle_0_sqr (exact_ms x)). lra. }
    apply Rmult_le_reg_r with (INR n); [lra|]. unfold Rdiv. rewrite Rmult_assoc, Rinv_l, Rmult_1_r by lra.
    eapply Rle_trans; [|exact Hs]. apply Rle_trans with (bpow radix2 (-100) * 2147483648); [apply Rmult_le_compat_l; [apply bpow_ge_0|lra]|].
    simpl. lra.
Qed.

Lemma sd_close : is_nan (stdDevRtt (stats_of h)) = false ->
  Rabs ((val (stdDevRtt (stats_of h)))² - (E2 - E1²)) <= (3 * INR n + 20) * bpow radix2 (-52) * E2.
Proof.
  intros Hnn. pose proof (sd_cases h Hpl Hne) as HC.
  destruct HC as [(Hle & Hf & H0)|[_ H]]; [|rewrite H in Hnn; discriminate].
  destruct (d_ok h Hpl Hne) as [D1 D2]. rewrite (sd_eq h Hpl Hne) in *. set (D := fsub (q_of h) (p_of h)) in *.
  assert (HD0 : 0 <= val D) by (rewrite D2; apply rnd_ge0; lra).
  destruct (fsqrt_ok D D1 HD0) as [_ S2]. rewrite S2. clear S2 Hf H0 Hnn.
  pose proof u64f_bounds as Hu. pose proof (n_big h Hpl Hne) as Hn. pose proof e2_ge0 as G2. pose proof q_close as HQ. pose proof p_close as HP.
  assert (HJ : E1² <= E2) by (apply variance_ge0; exact Hne). pose proof (Rle_0_sqr E1) as G1.
  destruct (p_bounds h Hpl Hne) as (_ & P0 & _).
  replace (bpow radix2 (-52)) with (2 * u) in * by (unfold u64f; simpl; lra).
  assert (Hu2 : u <= / 4000000000000000) by (unfold u64f; simpl; lra).
  apply Rabs_le_inv in HQ. apply Rabs_le_inv in HP.
  assert (Hnu : (INR n + 6) * (2 * u) <= / 100000) by nra.
  assert (Hq2 : val (q_of h) <= 2 * E2) by nra.
  (* the rounded difference *)
  pose proof (rnd_err (val (q_of h) - val (p_of h))) as HR. rewrite <- D2 in HR. rewrite (Rabs_pos_eq (val (q_of h) - val (p_of h))) in HR by lra.
  apply Rabs_le_inv in HR.
  assert (Heta : bpow radix2 (-1075) <= u * E2 \/ (E2 = 0 /\ val (q_of h) = 0)).
  { destruct e2_big as [E|E].
    - right. split; [exact E|]. rewrite E in HQ. lra.
    - left. apply Rle_trans with (bpow radix2 (-53) * bpow radix2 (-100)).
      + rewrite <- bpow_plus. apply bpow_le. lia.
      + apply Rmult_le_compat_l; [apply bpow_ge_0|exact E]. }
  destruct Heta as [Heta|[Z2 Zq]].
  2: { assert (Zp : val (p_of h) = 0) by lra. assert (ZD : val D = 0) by (rewrite D2, Zq, Zp, Rminus_0_r; apply rnd_0).
       assert (Z1 : E1² = 0) by lra. rewrite ZD, sqrt_0, rnd_0, Z2, Z1. unfold Rsqr. rewrite Rmult_0_l, !Rminus_0_r, Rabs_R0. lra. }
  assert (HD : Rabs (val D - (val (q_of h) - val (p_of h))) <= 3 * u * E2) by (apply Rabs_le; nra).
  apply Rabs_le_inv in HD.
  assert (HDle : val D <= 3 * E2) by nra.
  (* the square root *)
  assert (Hs : sqrt (val D) = 0 \/ bpow radix2 (-1022) <= sqrt (val D)).
  { destruct HD0 as [Hp|Hz]; [right|left; rewrite <- Hz; apply sqrt_0].
    apply Rle_trans with (sqrt (bpow radix2 (-1074))); [|apply sqrt_le_1_alt, double_ge, Hp].
    replace (sqrt (bpow radix2 (-1074))) with (bpow radix2 (-537)).
    2: { replace (bpow radix2 (-1074)) with ((bpow radix2 (-537))²) by (unfold Rsqr; rewrite <- bpow_plus; reflexivity). now rewrite sqrt_Rsqr by apply bpow_ge_0. }
    apply bpow_le. lia. }
  pose proof (rnd_rel_pos _ Hs) as [S1 S2]. pose proof (sqrt_pos (val D)) as Hs0.
  assert (ES : sqrt (val D) * sqrt (val D) = val D) by now apply sqrt_sqrt.
  set (s := sqrt (val D)) in *. set (t := rnd s) in *.
  assert (Ht0 : 0 <= t) by (eapply Rle_trans; [|exact S1]; apply Rmult_le_pos; lra).
  assert (L1 : val D * (1 - 3 * u) <= t²).
  { unfold Rsqr. apply Rle_trans with ((s * (1 - u)) * (s * (1 - u))).
    - replace ((s * (1 - u)) * (s * (1 - u))) with (s * s * ((1 - u) * (1 - u))) by ring. rewrite ES. apply Rmult_le_compat_l; [exact HD0|]. nra.
    - apply Rmult_le_compat; try assumption; apply Rmult_le_pos; lra. }
  assert (L2 : t² <= val D * (1 + 3 * u)).
  { unfold Rsqr. apply Rle_trans with ((s * (1 + u)) * (s * (1 + u))).
    - apply Rmult_le_compat; assumption.
    - replace ((s * (1 + u)) * (s * (1 + u))) with (s * s * ((1 + u) * (1 + u))) by ring. rewrite ES. apply Rmult_le_compat_l; [exact HD0|]. nra. }
  assert (Hp2 : (2 * INR n + 7) * (2 * u) * E1² <= (2 * INR n + 7) * (2 * u) * E2) by (apply Rmult_le_compat_l; [nra|exact HJ]).
  assert (HDu : val D * (3 * u) <= 9 * u * E2) by nra.
  apply Rabs_le. split; nra.
Qed.
(** against the mean of the squared deviations *)
Lemma sd_accuracy : is_nan (stdDevRtt (stats_of h)) = false ->
  Rabs ((val (stdDevRtt (stats_of h)))² - Rmean (map (fun r => (exact_ms r - Rmean (map exact_ms (rtts h)))²) (rtts h))) <=
  (3 * INR n + 20) * bpow radix2 (-52) * Rmean (map (fun r => (exact_ms r)²) (rtts h)).
Proof. intros H. rewrite variance_eq by exact Hne. now apply sd_close. Qed.
End History.
