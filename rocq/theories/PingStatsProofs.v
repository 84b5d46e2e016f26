(** Error bounds for the statistics of ndnping. *)
From Verif Require Import Base TlvModel PingModel PingSpec PingProofs Double PingStatsModel PingStatsSpec.
From Coq Require Import Reals Lra.
From Flocq Require Import Core BinarySingleNaN Plus_error.
Local Open Scope R_scope.

(** * Powers of 1 + u *)
Notation u := u64f.
Lemma u_pos : 0 < u. Proof. apply u64f_bounds. Qed.
Lemma u_half : u < / 1000000. Proof. apply u64f_bounds. Qed.

Lemma pow1m_ge k : 1 - INR k * u <= (1 - u) ^ k.
Proof.
  pose proof u_pos. pose proof u_half. induction k as [|k IH]; [simpl; lra|]. rewrite S_INR. cbn [pow].
  pose proof (pos_INR k). assert (0 < (1 - u) ^ k) by (apply pow_lt; lra).
  apply Rle_trans with ((1 - u) * (1 - INR k * u)); [nra|]. apply Rmult_le_compat_l; lra.
Qed.
Lemma pow1p_le k : 2 * INR k * u <= 1 -> (1 + u) ^ k <= 1 + 2 * INR k * u.
Proof.
  pose proof u_pos. pose proof u_half. induction k as [|k IH]; intros Hk; [simpl; lra|]. rewrite S_INR in *. cbn [pow].
  pose proof (pos_INR k). assert (Hk' : 2 * INR k * u <= 1) by nra. specialize (IH Hk').
  apply Rle_trans with ((1 + u) * (1 + 2 * INR k * u)); [apply Rmult_le_compat_l; lra|]. nra.
Qed.

(** * Summation in double arithmetic *)

(** numbers far from underflow and overflow *)
Definition good (x : f64) : Prop :=
  finite x = true /\ (val x = 0 \/ bpow radix2 (-100) <= val x) /\ val x <= bpow radix2 100.
Definition fsum (l : list f64) : f64 := fold_left fadd l f0.

Lemma rsum_app a b : Rsum (a ++ b) = Rsum a + Rsum b.
Proof. unfold Rsum. induction a as [|x a IH]; cbn [app fold_right]; [lra|]. rewrite IH. lra. Qed.
Lemma good_ge0 x : good x -> 0 <= val x.
Proof. intros (_ & H & _). pose proof (bpow_gt_0 radix2 (-100)). destruct H; lra. Qed.
Lemma rsum_ge0 l : Forall (fun x => 0 <= x) l -> 0 <= Rsum l.
Proof. unfold Rsum. induction 1; cbn [fold_right]; lra. Qed.

Lemma fsum_bounds l : Forall good l -> (Z.of_nat (length l) <= 2147483648)%Z ->
  let S := fsum l in let T := Rsum (map val l) in
  finite S = true /\ (val S = 0 \/ bpow radix2 (-100) <= val S) /\
  val S <= IZR (Z.of_nat (length l)) * bpow radix2 100 /\
  (1 - u) ^ length l * T <= val S <= (1 + u) ^ length l * T.
Proof.
  intros Hg Hn. cbn zeta. induction l as [|x l IH] using rev_ind.
  - cbn. split; [reflexivity|]. split; [now left|]. lra.
  - apply Forall_app in Hg. destruct Hg as [Hg Hx]. inversion_clear Hx as [|? ? Gx _].
    rewrite app_length in Hn |- *. cbn [length] in Hn |- *. specialize (IH Hg ltac:(lia)).
    unfold fsum in *. rewrite fold_left_app. cbn [fold_left]. set (S := fold_left fadd l f0) in *.
    rewrite map_app, rsum_app. cbn [map Rsum fold_right]. rewrite Rplus_0_r.
    set (T := Rsum (map val l)) in *. destruct IH as (F1 & F2 & F3 & F4 & F5).
    assert (HT : 0 <= T).
    { apply rsum_ge0. rewrite Forall_map. eapply Forall_impl; [|exact Hg]. intros y Gy. now apply good_ge0. }
    pose proof (good_ge0 x Gx) as Hx0. destruct Gx as (X1 & X2 & X3).
    pose proof (bpow_gt_0 radix2 (-100)) as Hb. pose proof (bpow_gt_0 radix2 100) as Hb'.
    assert (HS0 : 0 <= val S) by (destruct F2; lra).
    assert (Hup : val S + val x <= IZR (Z.of_nat (length l + 1)) * bpow radix2 100).
    { replace (Z.of_nat (length l + 1)) with (Z.of_nat (length l) + 1)%Z by lia. rewrite plus_IZR. lra. }
    assert (Hfm : rnd (IZR (Z.of_nat (length l + 1)) * bpow radix2 100) = IZR (Z.of_nat (length l + 1)) * bpow radix2 100).
    { apply rnd_scaled; lia. }
    assert (Hsm : small (val S + val x)).
    { unfold small. rewrite Rabs_pos_eq by lra. eapply Rle_trans; [exact Hup|].
      apply Rle_trans with (bpow radix2 31 * bpow radix2 100).
      - apply Rmult_le_compat_r; [lra|]. change (bpow radix2 31) with (IZR 2147483648). apply IZR_le. lia.
      - rewrite <- bpow_plus. apply bpow_le. lia. }
    destruct (fadd_ok S x F1 X1 Hsm) as [E1 E2].
    assert (Hcase : val S + val x = 0 \/ bpow radix2 (-100) <= val S + val x) by (destruct F2, X2; lra).
    split; [exact E1|]. rewrite E2. split; [|split].
    + destruct Hcase as [->|Hc]; [left; apply rnd_0|right]. rewrite <- (rnd_bpow (-100)) by lia. now apply rnd_le.
    + rewrite <- Hfm. now apply rnd_le.
    + assert (R1 : (val S + val x) * (1 - u) <= rnd (val S + val x) <= (val S + val x) * (1 + u)).
      { apply rnd_rel_pos. destruct Hcase as [Hc|Hc]; [now left|right]. eapply Rle_trans; [|exact Hc]. apply bpow_le. lia. }
      pose proof u_pos. pose proof u_half.
      rewrite !pow_add, !pow_1.
      assert (P1 : (1 - u) ^ length l <= 1).
      { apply Rle_trans with (1 ^ length l); [apply pow_incr; lra|rewrite pow1; lra]. }
      assert (P2 : 1 <= (1 + u) ^ length l) by (apply pow_R1_Rle; lra).
      split.
      * eapply Rle_trans; [|apply R1]. rewrite (Rmult_assoc _ _ (T + val x)), (Rmult_comm (1 - u) (T + val x)), <- Rmult_assoc.
        apply Rmult_le_compat_r; [lra|]. rewrite Rmult_plus_distr_l.
        assert ((1 - u) ^ length l * val x <= 1 * val x) by (apply Rmult_le_compat_r; lra). lra.
      * eapply Rle_trans; [apply R1|]. rewrite (Rmult_assoc _ _ (T + val x)), (Rmult_comm (1 + u) (T + val x)), <- Rmult_assoc.
        apply Rmult_le_compat_r; [lra|]. rewrite Rmult_plus_distr_l.
        assert (1 * val x <= (1 + u) ^ length l * val x) by (apply Rmult_le_compat_r; lra). lra.
Qed.

(** dividing the sum by the number of its terms *)
Lemma fmean_bounds l : Forall good l -> l <> [] -> (Z.of_nat (length l) <= 2147483648)%Z ->
  let A := fdiv (fsum l) (f_of_Z (Z.of_nat (length l))) in let T := Rmean (map val l) in
  finite A = true /\ (val A = 0 \/ bpow radix2 (-150) <= val A) /\ val A <= bpow radix2 100 /\
  (1 - u) ^ S (length l) * T <= val A <= (1 + u) ^ S (length l) * T.
Proof.
  intros Hg Hne Hn. cbn zeta. destruct (fsum_bounds l Hg Hn) as (F1 & F2 & F3 & F4 & F5).
  set (S := fsum l) in *. unfold Rmean. rewrite map_length. set (T := Rsum (map val l)) in *.
  assert (Hlen : (0 < Z.of_nat (length l))%Z) by (destruct l; [congruence|cbn [length]; lia]).
  destruct (f_of_Z_exact (Z.of_nat (length l))) as [N1 N2]; [lia|].
  set (n := IZR (Z.of_nat (length l))) in *.
  assert (Hn0 : 0 < n) by now apply IZR_lt.
  assert (Hn1 : 1 <= n) by (apply IZR_le; lia).
  assert (Hn31 : n <= bpow radix2 31) by (change (bpow radix2 31) with (IZR 2147483648); apply IZR_le; lia).
  pose proof (bpow_gt_0 radix2 (-100)) as Hb.
  assert (HS0 : 0 <= val S) by (destruct F2; lra).
  assert (Hup : val S / n <= bpow radix2 100).
  { apply Rmult_le_reg_r with n; [lra|]. unfold Rdiv. rewrite Rmult_assoc, Rinv_l by lra. lra. }
  assert (Hq0 : 0 <= val S / n) by (apply Rle_mult_inv_pos; lra).
  assert (Hcase : val S / n = 0 \/ bpow radix2 (-150) <= val S / n).
  { destruct F2 as [->|F2]; [left; unfold Rdiv; lra|right].
    apply Rmult_le_reg_r with n; [lra|]. unfold Rdiv. rewrite Rmult_assoc, Rinv_l, Rmult_1_r by lra.
    eapply Rle_trans; [|exact F2]. apply Rle_trans with (bpow radix2 (-150) * bpow radix2 31).
    - apply Rmult_le_compat_l; [apply bpow_ge_0|exact Hn31].
    - rewrite <- bpow_plus. apply bpow_le. lia. }
  assert (Hsm : small (val S / n)).
  { unfold small. rewrite Rabs_pos_eq by exact Hq0. eapply Rle_trans; [exact Hup|]. apply bpow_le. lia. }
  destruct (fdiv_ok S (f_of_Z (Z.of_nat (length l))) F1) as [E1 E2].
  { rewrite N2. lra. } { rewrite N2. exact Hsm. }
  split; [exact E1|]. rewrite E2, N2. split; [|split].
  - destruct Hcase as [->|Hc]; [left; apply rnd_0|right]. rewrite <- (rnd_bpow (-150)) by lia. now apply rnd_le.
  - rewrite <- (rnd_bpow 100) by lia. now apply rnd_le.
  - assert (R1 : (val S / n) * (1 - u) <= rnd (val S / n) <= (val S / n) * (1 + u)).
    { apply rnd_rel_pos. destruct Hcase as [Hc|Hc]; [now left|right]. eapply Rle_trans; [|exact Hc]. apply bpow_le. lia. }
    pose proof u_pos. pose proof u_half. pose proof (Rinv_0_lt_compat n Hn0).
    cbn [pow]. split.
    + eapply Rle_trans; [|apply R1]. unfold Rdiv.
      replace ((1 - u) * (1 - u) ^ length l * (T * / n)) with ((1 - u) ^ length l * T * / n * (1 - u)) by ring.
      apply Rmult_le_compat_r; [lra|]. apply Rmult_le_compat_r; lra.
    + eapply Rle_trans; [apply R1|]. unfold Rdiv.
      replace ((1 + u) * (1 + u) ^ length l * (T * / n)) with ((1 + u) ^ length l * T * / n * (1 + u)) by ring.
      apply Rmult_le_compat_r; [lra|]. apply Rmult_le_compat_r; lra.
Qed.

(** * Round-trip times *)
Lemma f1e6 : finite (f_of_Z 1000000) = true /\ val (f_of_Z 1000000) = 1000000.
Proof. apply f_of_Z_exact. lia. Qed.

Lemma of_ns r : (r < 9223372036854775808)%N ->
  finite (f_of_Z (Z.of_N r)) = true /\ val (f_of_Z (Z.of_N r)) = rnd (IZR (Z.of_N r)) /\
  (val (f_of_Z (Z.of_N r)) = 0 \/ 1 <= val (f_of_Z (Z.of_N r))) /\ val (f_of_Z (Z.of_N r)) <= bpow radix2 63.
Proof.
  intros Hr. destruct (f_of_Z_ok (Z.of_N r)) as [H1 H2]; [lia|]. split; [exact H1|]. split; [exact H2|]. rewrite H2. split.
  - destruct (N.eq_dec r 0) as [->|Hz]; [left; apply rnd_0|right].
    rewrite <- (rnd_Z 1) by lia. apply rnd_le. apply IZR_le. lia.
  - rewrite <- (rnd_bpow 63) by lia. apply rnd_le. change (bpow radix2 63) with (IZR 9223372036854775808). apply IZR_le. lia.
Qed.

Lemma rtt_ms_ok r : (r < 9223372036854775808)%N ->
  finite (rtt_ms r) = true /\ val (rtt_ms r) = rnd (rnd (IZR (Z.of_N r)) / 1000000) /\
  (val (rtt_ms r) = 0 \/ bpow radix2 (-20) <= val (rtt_ms r)) /\ val (rtt_ms r) <= bpow radix2 44 /\
  (1 - u) ^ 2 * exact_ms r <= val (rtt_ms r) <= (1 + u) ^ 2 * exact_ms r.
Proof.
  intros Hr. destruct (of_ns r Hr) as (H1 & H2 & H3 & H4). destruct f1e6 as [G1 G2].
  set (v := f_of_Z (Z.of_N r)) in *. unfold rtt_ms. fold v.
  assert (Hv0 : 0 <= val v) by (destruct H3; lra).
  assert (Hq : 0 <= val v / 1000000 <= bpow radix2 44).
  { split; [lra|]. apply Rmult_le_reg_r with 1000000; [lra|]. unfold Rdiv. rewrite Rmult_assoc, Rinv_l, Rmult_1_r by lra.
    eapply Rle_trans; [exact H4|]. replace (bpow radix2 63) with (bpow radix2 44 * bpow radix2 19) by (rewrite <- bpow_plus; reflexivity).
    apply Rmult_le_compat_l; [apply bpow_ge_0|]. simpl. lra. }
  assert (Hsm : small (val v / val (f_of_Z 1000000))).
  { rewrite G2. unfold small. rewrite Rabs_pos_eq by apply Hq. eapply Rle_trans; [apply Hq|]. apply bpow_le. lia. }
  destruct (fdiv_ok v (f_of_Z 1000000) H1) as [E1 E2]; [rewrite G2; lra|exact Hsm|]. rewrite G2 in E2.
  split; [exact E1|]. rewrite E2. split; [now rewrite H2|].
  assert (Hc : val v / 1000000 = 0 \/ bpow radix2 (-20) <= val v / 1000000).
  { destruct H3 as [->|H3]; [left; lra|right]. simpl. lra. }
  split; [|split].
  - destruct Hc as [->|Hc]; [left; apply rnd_0|right]. rewrite <- (rnd_bpow (-20)) by lia. now apply rnd_le.
  - rewrite <- (rnd_bpow 44) by lia. now apply rnd_le.
  - assert (R1 : (val v / 1000000) * (1 - u) <= rnd (val v / 1000000) <= (val v / 1000000) * (1 + u)).
    { apply rnd_rel_pos. destruct Hc as [Hc|Hc]; [now left|right]. eapply Rle_trans; [|exact Hc]. apply bpow_le. lia. }
    assert (R2 : IZR (Z.of_N r) * (1 - u) <= val v <= IZR (Z.of_N r) * (1 + u)).
    { rewrite H2. apply rnd_rel_pos. destruct (N.eq_dec r 0) as [->|Hz]; [now left|right].
      apply Rle_trans with 1; [change 1 with (bpow radix2 0); apply bpow_le; lia|]. apply IZR_le. lia. }
    pose proof u_pos. pose proof u_half. unfold exact_ms. cbn [pow]. split.
    + eapply Rle_trans; [|apply R1].
      replace ((1 - u) * ((1 - u) * 1) * (IZR (Z.of_N r) / 1000000)) with (IZR (Z.of_N r) * (1 - u) / 1000000 * (1 - u)) by field.
      apply Rmult_le_compat_r; [lra|]. apply Rmult_le_compat_r; lra.
    + eapply Rle_trans; [apply R1|].
      replace ((1 + u) * ((1 + u) * 1) * (IZR (Z.of_N r) / 1000000)) with (IZR (Z.of_N r) * (1 + u) / 1000000 * (1 + u)) by field.
      apply Rmult_le_compat_r; [lra|]. apply Rmult_le_compat_r; lra.
Qed.

Lemma rtt_ms_mono a b : (a <= b)%N -> (b < 9223372036854775808)%N -> val (rtt_ms a) <= val (rtt_ms b).
Proof.
  intros Hab Hb. destruct (rtt_ms_ok a ltac:(lia)) as (_ & -> & _). destruct (rtt_ms_ok b Hb) as (_ & -> & _).
  apply rnd_le. apply Rmult_le_compat_r; [lra|]. apply rnd_le, IZR_le. lia.
Qed.

Lemma good_rtt r : (r < 9223372036854775808)%N -> good (rtt_ms r).
Proof.
  intros Hr. destruct (rtt_ms_ok r Hr) as (H1 & _ & H3 & H4 & _). split; [exact H1|]. split.
  - destruct H3 as [H3|H3]; [now left|right]. eapply Rle_trans; [|exact H3]. apply bpow_le. lia.
  - eapply Rle_trans; [exact H4|]. apply bpow_le. lia.
Qed.

(** squares *)
Definition fsq (x : f64) : f64 := fmul x x.
Lemma fsq_ok r : (r < 9223372036854775808)%N ->
  good (fsq (rtt_ms r)) /\ (1 - u) * (val (rtt_ms r))² <= val (fsq (rtt_ms r)) <= (1 + u) * (val (rtt_ms r))².
Proof.
  intros Hr. destruct (rtt_ms_ok r Hr) as (H1 & _ & H3 & H4 & _). set (x := rtt_ms r) in *.
  pose proof (bpow_gt_0 radix2 (-20)) as Hb.
  assert (H0 : 0 <= val x) by (destruct H3; lra).
  assert (Hq : 0 <= val x * val x <= bpow radix2 88).
  { split; [now apply Rmult_le_pos|]. change 88%Z with (44 + 44)%Z. rewrite bpow_plus. apply Rmult_le_compat; assumption. }
  assert (Hc : val x * val x = 0 \/ bpow radix2 (-40) <= val x * val x).
  { destruct H3 as [->|H3]; [left; lra|right]. change (-40)%Z with (-20 + -20)%Z. rewrite bpow_plus. apply Rmult_le_compat; lra. }
  destruct (fmul_ok x x H1 H1) as [E1 E2].
  { unfold small. rewrite Rabs_pos_eq by apply Hq. eapply Rle_trans; [apply Hq|]. apply bpow_le. lia. }
  unfold good, fsq. rewrite E2. split.
  - split; [exact E1|]. split.
    + destruct Hc as [->|Hc]; [left; apply rnd_0|right]. rewrite <- (rnd_bpow (-100)) by lia. apply rnd_le.
      eapply Rle_trans; [|exact Hc]. apply bpow_le. lia.
    + rewrite <- (rnd_bpow 100) by lia. apply rnd_le. eapply Rle_trans; [apply Hq|]. apply bpow_le. lia.
  - unfold Rsqr. rewrite (Rmult_comm (1 - u)), (Rmult_comm (1 + u)). apply rnd_rel_pos.
    destruct Hc as [Hc|Hc]; [now left|right]. eapply Rle_trans; [|exact Hc]. apply bpow_le. lia.
Qed.

(** * The collector *)
Notation xs h := (map rtt_ms (rtts h)).

Lemma fold_record h : forall s, fold_left record h s =
  Stats (fold_left count_obs h (st_count s)) (fold_left fmin (xs h) (st_min s)) (fold_left fmax (xs h) (st_max s))
        (fold_left fadd (xs h) (st_sum s)) (fold_left fadd (map fsq (xs h)) (st_sumSq s)).
Proof.
  induction h as [|x h IH]; intros [c mi ma su sq]; [reflexivity|].
  destruct x; cbn [fold_left rtts flat_map app map]; rewrite IH; reflexivity.
Qed.
Lemma stats_eq h : stats_of h =
  Stats (counters_of h) (fold_left fmin (xs h) DBL_MAX) (fold_left fmax (xs h) f0) (fsum (xs h)) (fsum (map fsq (xs h))).
Proof. unfold stats_of. now rewrite fold_record. Qed.

Lemma rtts_length h : length (rtts h) = length (data_seqs h).
Proof. induction h as [|x h IH]; [reflexivity|]. destruct x; cbn; auto. Qed.
Lemma rtts_le h : (length (rtts h) <= length h)%nat.
Proof. unfold rtts. induction h as [|x h IH]; [auto|]. destruct x; cbn; lia. Qed.
Lemma received_eq h : n_received (counters_of h) = Z.of_nat (length (rtts h)).
Proof. rewrite counters_eq. cbn. now rewrite rtts_length. Qed.

Lemma fmin_spec a b : finite a = true -> finite b = true ->
  finite (fmin a b) = true /\ (fmin a b = a \/ fmin a b = b) /\ val (fmin a b) <= val a /\ val (fmin a b) <= val b.
Proof.
  intros Ha Hb. unfold fmin. destruct (flt b a) eqn:E.
  - apply flt_ok in E; auto. split; [auto|split; [auto|lra]].
  - assert (val a <= val b) by (apply Rnot_lt_le; intros H; apply flt_ok in H; auto; congruence). split; [auto|split; [auto|lra]].
Qed.
Lemma fmax_spec a b : finite a = true -> finite b = true ->
  finite (fmax a b) = true /\ (fmax a b = a \/ fmax a b = b) /\ val a <= val (fmax a b) /\ val b <= val (fmax a b).
Proof.
  intros Ha Hb. unfold fmax. destruct (flt a b) eqn:E.
  - apply flt_ok in E; auto. split; [auto|split; [auto|lra]].
  - assert (val b <= val a) by (apply Rnot_lt_le; intros H; apply flt_ok in H; auto; congruence). split; [auto|split; [auto|lra]].
Qed.
Lemma fold_fmin l : forall a, finite a = true -> Forall (fun x => finite x = true) l ->
  let m := fold_left fmin l a in
  finite m = true /\ (m = a \/ In m l) /\ val m <= val a /\ Forall (fun x => val m <= val x) l.
Proof.
  induction l as [|x l IH]; intros a Ha Hl; cbn [fold_left]; cbn zeta.
  - repeat split; auto. lra.
  - inversion_clear Hl as [|? ? Hx Hl']. destruct (fmin_spec a x Ha Hx) as (M1 & M2 & M3 & M4).
    destruct (IH _ M1 Hl') as (I1 & I2 & I3 & I4). repeat split; auto.
    + destruct I2 as [I2|I2]; [|right; now right]. rewrite I2. destruct M2 as [->| ->]; [now left|right; now left].
    + lra.
    + constructor; [lra|exact I4].
Qed.
Lemma fold_fmax l : forall a, finite a = true -> Forall (fun x => finite x = true) l ->
  let m := fold_left fmax l a in
  finite m = true /\ (m = a \/ In m l) /\ val a <= val m /\ Forall (fun x => val x <= val m) l.
Proof.
  induction l as [|x l IH]; intros a Ha Hl; cbn [fold_left]; cbn zeta.
  - repeat split; auto. lra.
  - inversion_clear Hl as [|? ? Hx Hl']. destruct (fmax_spec a x Ha Hx) as (M1 & M2 & M3 & M4).
    destruct (IH _ M1 Hl') as (I1 & I2 & I3 & I4). repeat split; auto.
    + destruct I2 as [I2|I2]; [|right; now right]. rewrite I2. destruct M2 as [->| ->]; [now left|right; now left].
    + lra.
    + constructor; [lra|exact I4].
Qed.

Lemma dbl_max_finite : finite DBL_MAX = true.
Proof. vm_compute. reflexivity. Qed.
Lemma dbl_max_big : bpow radix2 1000 <= val DBL_MAX.
Proof.
  destruct (f_me_ok 1 1000) as [H1 H2]. { unfold small. rewrite Rmult_1_l, Rabs_pos_eq by apply bpow_ge_0. apply bpow_le. lia. }
  rewrite rnd_scaled, Rmult_1_l in H2 by lia. rewrite <- H2. apply fle_ok; [exact H1|apply dbl_max_finite|]. vm_compute. reflexivity.
Qed.

Section History.
Variable h : list gobs.
Hypothesis Hpl : plausible h.
Hypothesis Hne : rtts h <> [].

Lemma xs_good : Forall good (xs h).
Proof. rewrite Forall_map. eapply Forall_impl; [|exact (proj1 Hpl)]. intros r Hr. now apply good_rtt. Qed.
Lemma xs_finite : Forall (fun x => finite x = true) (xs h).
Proof. eapply Forall_impl; [|exact xs_good]. now intros x (H & _). Qed.
Lemma rtts_few : (0 < Z.of_nat (length (rtts h)) < 2147483648)%Z.
Proof. pose proof (rtts_le h). pose proof (proj2 Hpl). destruct (rtts h); [congruence|]. cbn [length] in *. lia. Qed.
Lemma rtt_small r : In r (rtts h) -> (r < 9223372036854775808)%N.
Proof. apply (proj1 (Forall_forall _ _) (proj1 Hpl)). Qed.

Lemma min_spec : finite (st_min (stats_of h)) = true /\
  (exists r, In r (rtts h) /\ st_min (stats_of h) = rtt_ms r) /\
  (forall r, In r (rtts h) -> val (st_min (stats_of h)) <= val (rtt_ms r)).
Proof.
  rewrite stats_eq. cbn [st_min]. destruct (fold_fmin (xs h) DBL_MAX dbl_max_finite xs_finite) as (H1 & H2 & H3 & H4).
  set (m := fold_left _ _ _) in *.
  assert (Hall : forall r, In r (rtts h) -> val m <= val (rtt_ms r)).
  { intros r Hr. rewrite Forall_map in H4. exact (proj1 (Forall_forall _ _) H4 r Hr). }
  split; [exact H1|]. split; [|exact Hall]. destruct H2 as [H2|H2].
  - exfalso. destruct (rtts h) as [|r l] eqn:E; [congruence|]. specialize (Hall r (or_introl eq_refl)).
    pose proof (rtt_small r) as Hr. rewrite E in Hr. specialize (Hr (or_introl eq_refl)).
    destruct (rtt_ms_ok r Hr) as (_ & _ & _ & H5 & _). rewrite H2 in Hall. pose proof dbl_max_big.
    assert (bpow radix2 44 < bpow radix2 1000) by now apply bpow_lt. lra.
  - apply in_map_iff in H2. destruct H2 as (r & E & Hr). exists r. auto.
Qed.
Lemma max_spec : finite (st_max (stats_of h)) = true /\
  (exists r, In r (rtts h) /\ val (st_max (stats_of h)) = val (rtt_ms r)) /\
  (forall r, In r (rtts h) -> val (rtt_ms r) <= val (st_max (stats_of h))).
Proof.
  rewrite stats_eq. cbn [st_max]. destruct (fold_fmax (xs h) f0 eq_refl xs_finite) as (H1 & H2 & H3 & H4).
  set (m := fold_left _ _ _) in *.
  assert (Hall : forall r, In r (rtts h) -> val (rtt_ms r) <= val m).
  { intros r Hr. rewrite Forall_map in H4. exact (proj1 (Forall_forall _ _) H4 r Hr). }
  split; [exact H1|]. split; [|exact Hall]. destruct H2 as [H2|H2].
  - destruct (rtts h) as [|r l] eqn:E; [congruence|]. specialize (Hall r (or_introl eq_refl)).
    pose proof (rtt_small r) as Hr. rewrite E in Hr. specialize (Hr (or_introl eq_refl)).
    pose proof (good_ge0 _ (good_rtt r Hr)). exists r. split; [now left|]. rewrite H2 in *. cbn [val f0 B2R] in *. lra.
  - apply in_map_iff in H2. destruct H2 as (r & E & Hr). exists r. split; [exact Hr|now rewrite E].
Qed.

(** against the exact values *)
Lemma pow2_close x e : 0 <= e -> (1 - u) ^ 2 * e <= x <= (1 + u) ^ 2 * e -> Rabs (x - e) <= bpow radix2 (-51) * e.
Proof.
  intros He [H1 H2]. pose proof u_pos. pose proof u_half. replace (bpow radix2 (-51)) with (4 * u) by (unfold u64f; simpl; lra).
  cbn [pow] in *. apply Rabs_le. split; nra.
Qed.
Lemma exact_ge0 r : 0 <= exact_ms r.
Proof. unfold exact_ms. assert (0 <= IZR (Z.of_N r)) by (apply IZR_le; lia). lra. Qed.

Lemma exists_min (l : list N) : l <> [] -> exists r, In r l /\ forall r', In r' l -> (r <= r')%N.
Proof.
  induction l as [|x l IH]; [congruence|]. intros _. destruct l as [|y l].
  - exists x. split; [now left|]. intros r' [->|[]]. lia.
  - destruct IH as (r & Hr & Hmin); [discriminate|]. destruct (N.le_gt_cases x r) as [Hx|Hx].
    + exists x. split; [now left|]. intros r' [->|Hr']; [lia|]. apply Hmin in Hr'. lia.
    + exists r. split; [now right|]. intros r' [->|Hr']; [lia|]. now apply Hmin.
Qed.
Lemma exists_max (l : list N) : l <> [] -> exists r, In r l /\ forall r', In r' l -> (r' <= r)%N.
Proof.
  induction l as [|x l IH]; [congruence|]. intros _. destruct l as [|y l].
  - exists x. split; [now left|]. intros r' [->|[]]. lia.
  - destruct IH as (r & Hr & Hmin); [discriminate|]. destruct (N.le_gt_cases r x) as [Hx|Hx].
    + exists x. split; [now left|]. intros r' [->|Hr']; [lia|]. apply Hmin in Hr'. lia.
    + exists r. split; [now right|]. intros r' [->|Hr']; [lia|]. now apply Hmin.
Qed.

Lemma min_exact : exists r, In r (rtts h) /\ (forall r', In r' (rtts h) -> (r <= r')%N) /\
  finite (st_min (stats_of h)) = true /\ Rabs (val (st_min (stats_of h)) - exact_ms r) <= bpow radix2 (-51) * exact_ms r.
Proof.
  destruct (exists_min (rtts h) Hne) as (r & Hr & Hmin). exists r. split; [exact Hr|]. split; [exact Hmin|].
  destruct min_spec as (H1 & (r' & Hr' & E) & H3). split; [exact H1|].
  assert (val (st_min (stats_of h)) = val (rtt_ms r)) as ->.
  { apply Rle_antisym; [now apply H3|]. rewrite E. apply rtt_ms_mono; [now apply Hmin|now apply rtt_small]. }
  apply pow2_close; [apply exact_ge0|]. apply rtt_ms_ok. now apply rtt_small.
Qed.
Lemma max_exact : exists r, In r (rtts h) /\ (forall r', In r' (rtts h) -> (r' <= r)%N) /\
  finite (st_max (stats_of h)) = true /\ Rabs (val (st_max (stats_of h)) - exact_ms r) <= bpow radix2 (-51) * exact_ms r.
Proof.
  destruct (exists_max (rtts h) Hne) as (r & Hr & Hmax). exists r. split; [exact Hr|]. split; [exact Hmax|].
  destruct max_spec as (H1 & (r' & Hr' & E) & H3). split; [exact H1|].
  assert (val (st_max (stats_of h)) = val (rtt_ms r)) as ->.
  { apply Rle_antisym; [|now apply H3]. rewrite E. apply rtt_ms_mono; [now apply Hmax|now apply rtt_small]. }
  apply pow2_close; [apply exact_ge0|]. apply rtt_ms_ok. now apply rtt_small.
Qed.

(** the average *)
Notation n := (length (rtts h)).
Lemma avg_eq : avgRtt (stats_of h) = fdiv (fsum (xs h)) (f_of_Z (Z.of_nat (length (xs h)))).
Proof.
  unfold avgRtt. rewrite stats_eq. cbn [st_count st_sum]. rewrite received_eq, map_length. pose proof rtts_few.
  destruct (0 <? Z.of_nat n)%Z eqn:E; [reflexivity|lia].
Qed.
Lemma xs_few : (Z.of_nat (length (xs h)) <= 2147483648)%Z.
Proof. rewrite map_length. pose proof rtts_few. lia. Qed.
Lemma xs_ne : xs h <> [].
Proof. intros E. apply map_eq_nil in E. contradiction. Qed.

Lemma avg_bounds : let A := avgRtt (stats_of h) in let T := Rmean (map val (xs h)) in
  finite A = true /\ (val A = 0 \/ bpow radix2 (-150) <= val A) /\ val A <= bpow radix2 100 /\
  (1 - u) ^ S n * T <= val A <= (1 + u) ^ S n * T.
Proof. cbn zeta. rewrite avg_eq, <- (map_length rtt_ms (rtts h)). exact (fmean_bounds (xs h) xs_good xs_ne xs_few). Qed.

Lemma n_INR : IZR (Z.of_nat n) = INR n.
Proof. symmetry. apply INR_IZR_INZ. Qed.
Lemma n_big : 1 <= INR n <= 2147483648.
Proof. pose proof rtts_few. rewrite <- n_INR. split; apply IZR_le; lia. Qed.

Lemma rmean_mono (f g : N -> R) (l : list N) : l <> [] -> (forall r, In r l -> f r <= g r) -> Rmean (map f l) <= Rmean (map g l).
Proof.
  intros Hl H. unfold Rmean. rewrite !map_length. apply Rmult_le_compat_r.
  - apply Rlt_le, Rinv_0_lt_compat, IZR_lt. destruct l; [congruence|]. cbn [length]. lia.
  - clear Hl. unfold Rsum. induction l as [|x l IH]; cbn [map fold_right]; [lra|].
    pose proof (H x (or_introl eq_refl)). assert (forall r, In r l -> f r <= g r) by (intros r Hr; apply H; now right). specialize (IH H1). lra.
Qed.
Lemma rmean_scal c (f : N -> R) l : Rmean (map (fun r => c * f r) l) = c * Rmean (map f l).
Proof.
  unfold Rmean. rewrite !map_length. unfold Rdiv. rewrite <- Rmult_assoc. f_equal.
  unfold Rsum. induction l as [|x l IH]; cbn [map fold_right]; [lra|]. rewrite IH. lra.
Qed.
Lemma rmean_const c l : l <> [] -> Rmean (map (fun _ : N => c) l) = c.
Proof.
  intros Hl. unfold Rmean. rewrite map_length.
  assert (Rsum (map (fun _ : N => c) l) = c * INR (length l)) as ->.
  { clear Hl. unfold Rsum. induction l as [|x l IH]; cbn [map fold_right length]; [cbn; lra|]. rewrite IH, S_INR. lra. }
  rewrite <- INR_IZR_INZ. field. apply not_0_INR. destruct l; [congruence|discriminate].
Qed.
Lemma rmean_ge0 (f : N -> R) l : (forall r, In r l -> 0 <= f r) -> 0 <= Rmean (map f l).
Proof.
  intros H. unfold Rmean. rewrite map_length. destruct l as [|x l]; [cbn; unfold Rdiv; lra|].
  apply Rle_mult_inv_pos; [|apply IZR_lt; cbn [length]; lia]. apply rsum_ge0. apply Forall_forall.
  intros y Hy. apply in_map_iff in Hy. destruct Hy as (r & <- & Hr). auto.
Qed.

Lemma pow_close k x e : 0 <= e -> INR k <= 2147483660 -> (1 - u) ^ k * e <= x <= (1 + u) ^ k * e ->
  Rabs (x - e) <= INR k * bpow radix2 (-52) * e.
Proof.
  intros He Hk [H1 H2]. pose proof u_pos. pose proof u_half. pose proof (pos_INR k).
  replace (bpow radix2 (-52)) with (2 * u) by (unfold u64f; simpl; lra).
  assert (Hu : u <= / 4000000000000) by (unfold u64f; simpl; lra).
  assert (Hs : 2 * INR k * u <= 1) by nra.
  pose proof (pow1m_ge k). pose proof (pow1p_le k Hs). apply Rabs_le. split; nra.
Qed.

(** the average is close to the mean *)
Lemma avg_exact : finite (avgRtt (stats_of h)) = true /\
  Rabs (val (avgRtt (stats_of h)) - Rmean (map exact_ms (rtts h))) <=
  (INR n + 3) * bpow radix2 (-52) * Rmean (map exact_ms (rtts h)).
Proof.
  destruct avg_bounds as (H1 & _ & _ & H4 & H5). split; [exact H1|].
  set (A := avgRtt (stats_of h)) in *. rewrite map_map in H4, H5. set (E := Rmean (map exact_ms (rtts h))).
  assert (L1 : (1 - u) ^ 2 * E <= Rmean (map (fun r => val (rtt_ms r)) (rtts h))).
  { unfold E. rewrite <- rmean_scal. apply rmean_mono; [exact Hne|]. intros r Hr. now apply rtt_ms_ok, rtt_small. }
  assert (L2 : Rmean (map (fun r => val (rtt_ms r)) (rtts h)) <= (1 + u) ^ 2 * E).
  { unfold E. rewrite <- rmean_scal. apply rmean_mono; [exact Hne|]. intros r Hr. now apply rtt_ms_ok, rtt_small. }
  set (T := Rmean _) in *. pose proof u_pos. pose proof u_half. pose proof n_big.
  replace (INR n + 3) with (INR (S n + 2)) by (rewrite plus_INR, S_INR; simpl; lra).
  apply pow_close.
  - apply rmean_ge0. intros. apply exact_ge0.
  - rewrite plus_INR, S_INR. simpl. lra.
  - rewrite !pow_add, !Rmult_assoc. split.
    + eapply Rle_trans; [|exact H4]. apply Rmult_le_compat_l; [apply pow_le; lra|exact L1].
    + eapply Rle_trans; [exact H5|]. apply Rmult_le_compat_l; [apply pow_le; lra|exact L2].
Qed.

(** and nearly between the printed minimum and maximum *)
Lemma avg_between :
  (1 - (INR n + 1) * bpow radix2 (-52)) * val (st_min (stats_of h)) <= val (avgRtt (stats_of h)) /\
  val (avgRtt (stats_of h)) <= (1 + (INR n + 1) * bpow radix2 (-52)) * val (st_max (stats_of h)).
Proof.
  destruct avg_bounds as (H1 & _ & _ & H4 & H5). rewrite map_map in H4, H5.
  destruct min_spec as (_ & (r1 & Hr1 & E1) & M1). destruct max_spec as (_ & (r2 & Hr2 & E2) & M2).
  set (A := val (avgRtt _)) in *. set (mi := val (st_min _)) in *. set (ma := val (st_max _)) in *.
  assert (L1 : mi <= Rmean (map (fun r => val (rtt_ms r)) (rtts h))).
  { rewrite <- (rmean_const mi (rtts h) Hne). apply rmean_mono; [exact Hne|exact M1]. }
  assert (L2 : Rmean (map (fun r => val (rtt_ms r)) (rtts h)) <= ma).
  { rewrite <- (rmean_const ma (rtts h) Hne). apply rmean_mono; [exact Hne|exact M2]. }
  assert (Hmi : 0 <= mi). { unfold mi. rewrite E1. apply good_ge0, good_rtt, rtt_small, Hr1. }
  set (T := Rmean _) in *. pose proof u_pos. pose proof u_half. pose proof n_big.
  assert (HT : 0 <= T) by lra.
  pose proof (pow_close (S n) A T HT ltac:(rewrite S_INR; lra) (conj H4 H5)) as HC. rewrite S_INR in HC.
  apply Rabs_le_inv in HC. set (c := (INR n + 1) * bpow radix2 (-52)) in *.
  assert (Hc : 0 <= c <= 1).
  { unfold c. split; [apply Rmult_le_pos; [lra|apply bpow_ge_0]|]. simpl. lra. }
  split; nra.
Qed.

(** * The standard deviation *)
Lemma fsqrt_ok x : finite x = true -> 0 <= val x -> finite (fsqrt x) = true /\ val (fsqrt x) = rnd (sqrt (val x)).
Proof.
  intros Hf Hx. destruct (Bsqrt_correct 53 1024 _ _ mode_NE x) as (H1 & H2 & _). split; [|exact H1].
  unfold fsqrt. rewrite H2. destruct x as [s|s| |s m e Hb]; try discriminate; [reflexivity|].
  destruct s; [|reflexivity]. exfalso. cbn [B2R] in Hx. pose proof (F2R_lt_0 radix2 (Float radix2 (Zneg m) e) eq_refl). cbn [cond_Zopp] in Hx. change (- Zpos m)%Z with (Zneg m) in Hx. lra.
Qed.
Lemma fsqrt_neg x : finite x = true -> val x < 0 -> fsqrt x = fnan.
Proof.
  intros Hf Hx. destruct x as [s|s| |s m e Hb]; try discriminate; cbn [B2R] in Hx; [lra|].
  destruct s; [reflexivity|]. exfalso. pose proof (F2R_gt_0 radix2 (Float radix2 (Zpos m) e) eq_refl). cbn [cond_Zopp] in Hx. lra.
Qed.

Definition q_of : f64 := fdiv (fsum (map fsq (xs h))) (f_of_Z (Z.of_nat n)).
Definition p_of : f64 := fmul (avgRtt (stats_of h)) (avgRtt (stats_of h)).
Lemma sd_eq : stdDevRtt (stats_of h) = fsqrt (fsub q_of p_of).
Proof.
  unfold stdDevRtt, q_of, p_of. rewrite stats_eq. cbn [st_count st_sumSq]. rewrite received_eq. pose proof rtts_few.
  destruct (0 <? Z.of_nat n)%Z eqn:E; [reflexivity|lia].
Qed.
Definition M1 := Rmean (map (fun r => val (rtt_ms r)) (rtts h)).
Definition M2 := Rmean (map (fun r => (val (rtt_ms r))²) (rtts h)).

Lemma q_bounds : finite q_of = true /\ 0 <= val q_of <= bpow radix2 100 /\
  (1 - u) ^ (n + 2) * M2 <= val q_of <= (1 + u) ^ (n + 2) * M2.
Proof.
  assert (Hg : Forall good (map fsq (xs h))).
  { rewrite !Forall_map. eapply Forall_impl; [|exact (proj1 Hpl)]. intros r Hr. now apply fsq_ok. }
  assert (Hne' : map fsq (xs h) <> []) by (intros E; apply map_eq_nil in E; now apply xs_ne).
  pose proof (fmean_bounds _ Hg Hne') as H. cbn zeta in H. rewrite !map_length in H.
  fold q_of in H. pose proof rtts_few. destruct H as (H1 & H2 & H3 & H4 & H5); [lia|].
  pose proof (bpow_gt_0 radix2 (-150)). split; [exact H1|]. split; [destruct H2; lra|].
  rewrite !map_map in H4, H5. pose proof u_pos. pose proof u_half.
  assert (L1 : (1 - u) * M2 <= Rmean (map (fun r => val (fsq (rtt_ms r))) (rtts h))).
  { unfold M2. rewrite <- rmean_scal. apply rmean_mono; [exact Hne|]. intros r Hr. now apply fsq_ok, rtt_small. }
  assert (L2 : Rmean (map (fun r => val (fsq (rtt_ms r))) (rtts h)) <= (1 + u) * M2).
  { unfold M2. rewrite <- rmean_scal. apply rmean_mono; [exact Hne|]. intros r Hr. now apply fsq_ok, rtt_small. }
  replace (n + 2)%nat with (S n + 1)%nat by lia. rewrite !(pow_add _ (S n)), !pow_1, !Rmult_assoc. split.
  - eapply Rle_trans; [|exact H4]. apply Rmult_le_compat_l; [apply pow_le; lra|exact L1].
  - eapply Rle_trans; [exact H5|]. apply Rmult_le_compat_l; [apply pow_le; lra|exact L2].
Qed.
Lemma p_bounds : finite p_of = true /\ 0 <= val p_of <= bpow radix2 200 /\
  (1 - u) ^ (2 * n + 3) * M1² <= val p_of <= (1 + u) ^ (2 * n + 3) * M1².
Proof.
  destruct avg_bounds as (H1 & H2 & H3 & H4 & H5). rewrite map_map in H4, H5. fold M1 in H4, H5. unfold p_of.
  set (A := avgRtt (stats_of h)) in *. pose proof (bpow_gt_0 radix2 (-150)).
  assert (H0 : 0 <= val A) by (destruct H2; lra).
  assert (Hq : 0 <= val A * val A <= bpow radix2 200).
  { split; [now apply Rmult_le_pos|]. change 200%Z with (100 + 100)%Z. rewrite bpow_plus. apply Rmult_le_compat; assumption. }
  assert (Hc : val A * val A = 0 \/ bpow radix2 (-300) <= val A * val A).
  { destruct H2 as [->|H2]; [left; lra|right]. change (-300)%Z with (-150 + -150)%Z. rewrite bpow_plus. apply Rmult_le_compat; lra. }
  destruct (fmul_ok A A H1 H1) as [E1 E2].
  { unfold small. rewrite Rabs_pos_eq by apply Hq. eapply Rle_trans; [apply Hq|]. apply bpow_le. lia. }
  split; [exact E1|]. rewrite E2. split.
  { split; [apply rnd_ge0, Hq|]. rewrite <- (rnd_bpow 200) by lia. apply rnd_le, Hq. }
  assert (R1 : val A * val A * (1 - u) <= rnd (val A * val A) <= val A * val A * (1 + u)).
  { apply rnd_rel_pos. destruct Hc as [Hc|Hc]; [now left|right]. eapply Rle_trans; [|exact Hc]. apply bpow_le. lia. }
  pose proof u_pos. pose proof u_half.
  assert (HM : 0 <= M1). { apply rmean_ge0. intros r Hr. now apply good_ge0, good_rtt, rtt_small. }
  replace (2 * n + 3)%nat with (S n + S n + 1)%nat by lia. rewrite !pow_add, !pow_1. unfold Rsqr.
  set (a := (1 - u) ^ S n) in *. set (b := (1 + u) ^ S n) in *.
  assert (0 <= a) by (apply pow_le; lra). assert (0 <= b) by (apply pow_le; lra).
  assert (0 <= a * M1) by now apply Rmult_le_pos.
  split.
  - eapply Rle_trans; [|apply R1]. replace (a * a * (1 - u) * (M1 * M1)) with (a * M1 * (a * M1) * (1 - u)) by ring.
    apply Rmult_le_compat_r; [lra|]. apply Rmult_le_compat; assumption.
  - eapply Rle_trans; [apply R1|]. replace (b * b * (1 + u) * (M1 * M1)) with (b * M1 * (b * M1) * (1 + u)) by ring.
    apply Rmult_le_compat_r; [lra|]. apply Rmult_le_compat; assumption.
Qed.
Lemma d_ok : finite (fsub q_of p_of) = true /\ val (fsub q_of p_of) = rnd (val q_of - val p_of).
Proof.
  destruct q_bounds as (Q1 & Q2 & _). destruct p_bounds as (P1 & P2 & _). apply fsub_ok; try assumption.
  unfold small. apply Rle_trans with (bpow radix2 200); [|apply bpow_le; lia].
  assert (bpow radix2 100 <= bpow radix2 200) by (apply bpow_le; lia). apply Rabs_le. lra.
Qed.

(** a number iff the subtraction is not negative; never infinite *)
Lemma sd_cases : (val p_of <= val q_of /\ finite (stdDevRtt (stats_of h)) = true /\ 0 <= val (stdDevRtt (stats_of h))) \/
  (val q_of < val p_of /\ stdDevRtt (stats_of h) = fnan).
Proof.
  rewrite sd_eq. destruct d_ok as [D1 D2]. destruct (Rle_lt_dec (val p_of) (val q_of)) as [Hle|Hlt]; [left|right]; (split; [assumption|]).
  - assert (H0 : 0 <= val (fsub q_of p_of)) by (rewrite D2; apply rnd_ge0; lra).
    destruct (fsqrt_ok _ D1 H0) as [E1 E2]. split; [exact E1|]. rewrite E2. apply rnd_ge0, sqrt_pos.
  - apply fsqrt_neg; [exact D1|]. rewrite D2.
    assert (Hr : rnd (val q_of - val p_of) <= 0) by (rewrite <- rnd_0; apply rnd_le; lra).
    destruct (Req_dec (rnd (val q_of - val p_of)) 0) as [E|E]; [|lra]. exfalso.
    assert (Hd : val q_of = val p_of); [|lra].
    apply Rminus_diag_uniq. refine (round_plus_eq_0 radix2 (SpecFloat.fexp 53 1024) ZnearestE (val q_of) (- val p_of) _ _ E).
    + apply generic_format_B2R.
    + apply generic_format_opp, generic_format_B2R.
Qed.

Lemma sd_number :
  M1² * (1 + (2 * INR n + 3) * bpow radix2 (-52)) <= M2 * (1 - (INR n + 2) * bpow radix2 (-52)) ->
  finite (stdDevRtt (stats_of h)) = true /\ 0 <= val (stdDevRtt (stats_of h)).
Proof.
  intros Hc. destruct sd_cases as [(_ & H)|[Hlt _]]; [exact H|exfalso].
  destruct q_bounds as (_ & _ & Q3 & _). destruct p_bounds as (_ & _ & _ & P4).
  pose proof n_big. pose proof u_pos. pose proof (pow1m_ge (n + 2)) as B1.
  assert (Hu : u <= / 4000000000000000) by (unfold u64f; simpl; lra).
  assert (I1 : INR (n + 2) = INR n + 2) by (rewrite plus_INR; simpl; lra).
  assert (I2 : INR (2 * n + 3) = 2 * INR n + 3) by (rewrite plus_INR, mult_INR; simpl; lra).
  assert (B2 : (1 + u) ^ (2 * n + 3) <= 1 + 2 * INR (2 * n + 3) * u) by (apply pow1p_le; rewrite I2; nra).
  rewrite I1 in B1. rewrite I2 in B2. replace (bpow radix2 (-52)) with (2 * u) in Hc by (unfold u64f; simpl; lra).
  assert (HM2 : 0 <= M2) by (apply rmean_ge0; intros; apply Rle_0_sqr). pose proof (Rle_0_sqr M1).
  assert (val p_of <= M1² * (1 + (2 * INR n + 3) * (2 * u))).
  { eapply Rle_trans; [exact P4|]. rewrite Rmult_comm. apply Rmult_le_compat_l; [assumption|]. lra. }
  assert (M2 * (1 - (INR n + 2) * (2 * u)) <= val q_of).
  { eapply Rle_trans; [|exact Q3]. rewrite Rmult_comm. apply Rmult_le_compat_r; [assumption|]. nra. }
  lra.
Qed.
End History.

(** one answered ping *)
Lemma one_rtt h r : plausible h -> rtts h = [r] ->
  val (avgRtt (stats_of h)) = val (rtt_ms r) /\ finite (stdDevRtt (stats_of h)) = true /\ val (stdDevRtt (stats_of h)) = 0.
Proof.
  intros Hpl Er. assert (Hne : rtts h <> []) by (rewrite Er; discriminate).
  assert (Hr : (r < 9223372036854775808)%N) by (apply (rtt_small h Hpl); rewrite Er; now left).
  destruct (f_of_Z_exact 1) as [N1 N2]; [lia|].
  assert (Hdiv : forall x : f64, finite x = true -> Rabs (val x) <= bpow radix2 1000 -> finite (fdiv x (f_of_Z 1)) = true /\ val (fdiv x (f_of_Z 1)) = val x).
  { intros x Hx Hb. destruct (fdiv_ok x (f_of_Z 1) Hx) as [E1 E2]; rewrite ?N2; [lra| |].
    - unfold small, Rdiv. rewrite Rinv_1, Rmult_1_r. eapply Rle_trans; [exact Hb|]. apply bpow_le. lia.
    - split; [exact E1|]. rewrite E2, N2. unfold Rdiv. rewrite Rinv_1, Rmult_1_r. apply rnd_val. }
  assert (Hadd : forall x : f64, finite x = true -> Rabs (val x) <= bpow radix2 1000 -> finite (fadd f0 x) = true /\ val (fadd f0 x) = val x).
  { intros x Hx Hb. destruct (fadd_ok f0 x eq_refl Hx) as [E1 E2]; cbn [B2R f0]; rewrite ?Rplus_0_l.
    - unfold small. eapply Rle_trans; [exact Hb|]. apply bpow_le. lia.
    - split; [exact E1|]. rewrite E2. cbn [B2R f0]. rewrite Rplus_0_l. apply rnd_val. }
  assert (Hsmall : forall x, good x -> Rabs (val x) <= bpow radix2 1000).
  { intros x Gx. pose proof (good_ge0 x Gx). destruct Gx as (_ & _ & Gx). rewrite Rabs_pos_eq by assumption.
    eapply Rle_trans; [exact Gx|]. apply bpow_le. lia. }
  pose proof (good_rtt r Hr) as Gr. destruct (fsq_ok r Hr) as [Gs _].
  destruct (Hadd _ (proj1 Gr) (Hsmall _ Gr)) as [A1 A2]. destruct (Hadd _ (proj1 Gs) (Hsmall _ Gs)) as [S1 S2].
  destruct (Hdiv (fadd f0 (rtt_ms r)) A1) as [D1 D2]; [rewrite A2; now apply Hsmall|].
  destruct (Hdiv (fadd f0 (fsq (rtt_ms r))) S1) as [T1 T2]; [rewrite S2; now apply Hsmall|].
  assert (EA : avgRtt (stats_of h) = fdiv (fadd f0 (rtt_ms r)) (f_of_Z 1)) by (rewrite (avg_eq h Hpl Hne), Er; reflexivity).
  assert (EQ : q_of h = fdiv (fadd f0 (fsq (rtt_ms r))) (f_of_Z 1)) by (unfold q_of; rewrite Er; reflexivity).
  assert (HA : val (avgRtt (stats_of h)) = val (rtt_ms r)) by (rewrite EA, D2; exact A2).
  assert (HP : val (p_of h) = val (fsq (rtt_ms r))).
  { unfold p_of, fsq. rewrite EA.
    assert (Hb : small (val (rtt_ms r) * val (rtt_ms r))).
    { destruct (rtt_ms_ok r Hr) as (_ & _ & _ & H4 & _). pose proof (good_ge0 _ Gr). unfold small.
      rewrite Rabs_pos_eq by now apply Rmult_le_pos. apply Rle_trans with (bpow radix2 44 * bpow radix2 44).
      - now apply Rmult_le_compat. - rewrite <- bpow_plus. apply bpow_le. lia. }
    rewrite (proj2 (fmul_ok (rtt_ms r) (rtt_ms r) (proj1 Gr) (proj1 Gr) Hb)).
    rewrite (proj2 (fmul_ok _ _ D1 D1 ltac:(rewrite D2, A2; exact Hb))). now rewrite D2, A2. }
  assert (HQ : val (q_of h) = val (fsq (rtt_ms r))) by (rewrite EQ, T2; exact S2).
  split; [exact HA|]. rewrite (sd_eq h Hpl Hne). destruct (d_ok h Hpl Hne) as [E1 E2]. rewrite HP, HQ, Rminus_diag_eq, rnd_0 in E2 by reflexivity.
  destruct (fsqrt_ok _ E1) as [F1 F2]; [rewrite E2; lra|]. split; [exact F1|]. rewrite F2, E2, sqrt_0. apply rnd_0.
Qed.

(** * The rates *)
Lemma settled_le h : (length (settled_seqs h) <= length h)%nat.
Proof.
  unfold settled_seqs. rewrite !app_length. induction h as [|x h IH]; [cbn; lia|].
  destruct x; cbn [data_seqs nack_seqs timeout_seqs flat_map app length]; unfold data_seqs, nack_seqs, timeout_seqs in *; lia.
Qed.
Lemma rate_ok a b : (0 <= a <= b)%Z -> (0 < b < 2147483648)%Z ->
  finite (fdiv (f_of_Z a) (f_of_Z b)) = true /\ 0 <= val (fdiv (f_of_Z a) (f_of_Z b)) <= 1 /\
  (val (fdiv (f_of_Z a) (f_of_Z b)) = 0 <-> a = 0%Z) /\ (val (fdiv (f_of_Z a) (f_of_Z b)) = 1 <-> a = b) /\
  Rabs (val (fdiv (f_of_Z a) (f_of_Z b)) - IZR a / IZR b) <= bpow radix2 (-53).
Proof.
  intros Ha Hb. destruct (f_of_Z_exact a) as [A1 A2]; [lia|]. destruct (f_of_Z_exact b) as [B1 B2]; [lia|].
  assert (Hb0 : 0 < IZR b) by (apply IZR_lt; lia). assert (Ha0 : 0 <= IZR a) by (apply IZR_le; lia).
  assert (Hab : IZR a <= IZR b) by (apply IZR_le; lia).
  assert (Hq : 0 <= IZR a / IZR b <= 1).
  { split; [apply Rle_mult_inv_pos; lra|]. apply Rmult_le_reg_r with (IZR b); [lra|]. unfold Rdiv. rewrite Rmult_assoc, Rinv_l by lra. lra. }
  destruct (fdiv_ok (f_of_Z a) (f_of_Z b) A1) as [E1 E2]; [rewrite B2; lra| |].
  { rewrite A2, B2. unfold small. rewrite Rabs_pos_eq by apply Hq. apply Rle_trans with (bpow radix2 0); [apply Hq|]. apply bpow_le. lia. }
  split; [exact E1|]. rewrite E2, A2, B2.
  assert (Hn31 : IZR b <= bpow radix2 31) by (change (bpow radix2 31) with (IZR 2147483648); apply IZR_le; lia).
  assert (Hlo : (0 < a)%Z -> bpow radix2 (-31) <= IZR a / IZR b).
  { intros Hap. apply Rmult_le_reg_r with (IZR b); [lra|]. unfold Rdiv. rewrite Rmult_assoc, Rinv_l, Rmult_1_r by lra.
    apply Rle_trans with (bpow radix2 (-31) * bpow radix2 31); [apply Rmult_le_compat_l; [apply bpow_ge_0|exact Hn31]|].
    rewrite <- bpow_plus. cbn. apply (IZR_le 1). lia. }
  assert (R1 : IZR a / IZR b * (1 - u) <= rnd (IZR a / IZR b) <= IZR a / IZR b * (1 + u)).
  { apply rnd_rel_pos. destruct (Z.eq_dec a 0) as [->|Hz]; [left; unfold Rdiv; lra|right].
    eapply Rle_trans; [|apply Hlo; lia]. apply bpow_le. lia. }
  assert (Hbnd : 0 <= rnd (IZR a / IZR b) <= 1).
  { split; [now apply rnd_ge0|]. rewrite <- (rnd_Z 1) by lia. now apply rnd_le. }
  pose proof u_pos. pose proof u_half.
  split; [exact Hbnd|]. split; [|split].
  - split.
    + intros E. destruct (Z.eq_dec a 0) as [Hz|Hz]; [exact Hz|exfalso]. pose proof (Hlo ltac:(lia)). pose proof (bpow_gt_0 radix2 (-31)). nra.
    + intros ->. unfold Rdiv. rewrite Rmult_0_l. apply rnd_0.
  - split.
    + intros E. destruct (Z.eq_dec a b) as [Hz|Hz]; [exact Hz|exfalso].
      assert (IZR a + 1 <= IZR b) by (rewrite <- plus_IZR; apply IZR_le; lia).
      assert (IZR a / IZR b <= 1 - bpow radix2 (-31)).
      { apply Rmult_le_reg_r with (IZR b); [lra|]. unfold Rdiv. rewrite Rmult_assoc, Rinv_l, Rmult_1_r by lra.
        assert (bpow radix2 (-31) * IZR b <= bpow radix2 (-31) * bpow radix2 31) by (apply Rmult_le_compat_l; [apply bpow_ge_0|exact Hn31]).
        rewrite <- bpow_plus in H2. change (bpow radix2 (-31 + 31)) with 1 in H2. lra. }
      assert (u <= / 2 * bpow radix2 (-31)) by (unfold u64f; simpl; lra). pose proof (bpow_gt_0 radix2 (-31)). nra.
    + intros ->. unfold Rdiv. rewrite Rinv_r by lra. apply (rnd_Z 1). lia.
  - change (bpow radix2 (-53)) with u. apply Rabs_le. split; nra.
Qed.

Section Rates.
Variable h : list gobs.
Hypothesis Hpl : plausible h.
Hypothesis Hne : settled_seqs h <> [].

Lemma settled_few : (0 < Z.of_nat (length (settled_seqs h)) < 2147483648)%Z.
Proof.
  pose proof (settled_le h). pose proof (proj2 Hpl). destruct (settled_seqs h); [congruence|]. cbn [length] in *. lia.
Qed.
Lemma settled_split : length (settled_seqs h) = (length (data_seqs h) + length (nack_seqs h) + length (timeout_seqs h))%nat.
Proof. unfold settled_seqs. rewrite !app_length. lia. Qed.
Lemma loss_rate :
  let lost := length (timeout_seqs h) in let sent := length (settled_seqs h) in
  let rate := packetLossRate (stats_of h) in
  finite rate = true /\ 0 <= val rate <= 1 /\ (val rate = 0 <-> lost = 0%nat) /\ (val rate = 1 <-> lost = sent) /\
  Rabs (val rate - INR lost / INR sent) <= bpow radix2 (-53).
Proof.
  cbn zeta. pose proof settled_few as Hf. pose proof settled_split as Hs.
  assert (E : packetLossRate (stats_of h) = fdiv (f_of_Z (Z.of_nat (length (timeout_seqs h)))) (f_of_Z (Z.of_nat (length (settled_seqs h))))).
  { unfold packetLossRate. rewrite stats_eq. cbn [st_count]. rewrite counters_eq. cbn [n_sent n_received n_nacked].
    destruct (0 <? _)%Z eqn:E; [|lia]. do 2 f_equal. lia. }
  rewrite E, !INR_IZR_INZ. destruct (rate_ok (Z.of_nat (length (timeout_seqs h))) (Z.of_nat (length (settled_seqs h)))) as (H1 & H2 & H3 & H4 & H5); [lia|lia|].
  split; [exact H1|]. split; [exact H2|]. split; [rewrite H3; lia|]. split; [rewrite H4; lia|exact H5].
Qed.
Lemma nack_rate :
  let nacked := length (nack_seqs h) in let sent := length (settled_seqs h) in
  let rate := packetNackedRate (stats_of h) in
  finite rate = true /\ 0 <= val rate <= 1 /\ (val rate = 0 <-> nacked = 0%nat) /\ (val rate = 1 <-> nacked = sent) /\
  Rabs (val rate - INR nacked / INR sent) <= bpow radix2 (-53).
Proof.
  cbn zeta. pose proof settled_few as Hf. pose proof settled_split as Hs.
  assert (E : packetNackedRate (stats_of h) = fdiv (f_of_Z (Z.of_nat (length (nack_seqs h)))) (f_of_Z (Z.of_nat (length (settled_seqs h))))).
  { unfold packetNackedRate. rewrite stats_eq. cbn [st_count]. rewrite counters_eq. cbn [n_sent n_received n_nacked].
    destruct (0 <? _)%Z eqn:E; [|lia]. reflexivity. }
  rewrite E, !INR_IZR_INZ. destruct (rate_ok (Z.of_nat (length (nack_seqs h))) (Z.of_nat (length (settled_seqs h)))) as (H1 & H2 & H3 & H4 & H5); [lia|lia|].
  split; [exact H1|]. split; [exact H2|]. split; [rewrite H3; lia|]. split; [rewrite H4; lia|exact H5].
Qed.
End Rates.

Lemma sd_cases' h : plausible h -> rtts h <> [] ->
  (finite (stdDevRtt (stats_of h)) = true /\ 0 <= val (stdDevRtt (stats_of h))) \/ stdDevRtt (stats_of h) = fnan.
Proof. intros Hp Hn. destruct (sd_cases h Hp Hn) as [(_ & H)|(_ & H)]; auto. Qed.
