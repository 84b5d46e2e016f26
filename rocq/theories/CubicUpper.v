(** An upper bound on the CUBIC window. *)
From Verif Require Import Base Double WindowModel WindowProofs WindowTheorems CubicUpperSpec.
From Coq Require Import Reals Lra.
From Flocq Require Import Core BinarySingleNaN.
Local Open Scope R_scope.

Local Notation P2 := (bpow radix2).
Local Ltac zl := first [solve [clear; lia]|lia].
Lemma p61 : P2 61 = 2305843009213693952. Proof. reflexivity. Qed.
Lemma p63 : P2 63 = 9223372036854775808. Proof. reflexivity. Qed.
Lemma p64 : P2 64 = 18446744073709551616. Proof. reflexivity. Qed.
Lemma p65 : P2 65 = 36893488147419103232. Proof. reflexivity. Qed.
Lemma p40 : P2 40 = 1099511627776. Proof. reflexivity. Qed.

(** rounding up a number of moderate size *)
Lemma rnd_up x y : x <= y -> 0 <= y <= P2 61 -> rnd x <= y + 512.
Proof.
  intros Hx [H0 Hy]. apply Rle_trans with (rnd y); [now apply rnd_le|].
  destruct (Rle_dec (P2 (-1022)) y) as [Hc|Hc].
  - destruct (rnd_rel_pos y (or_intror Hc)) as [_ H]. eapply Rle_trans; [exact H|].
    assert (Hu : u64f <= / 4503599627370496). { unfold u64f. simpl. lra. }
    rewrite p61 in Hy. assert (y * u64f <= 2305843009213693952 * / 4503599627370496); [|lra].
    apply Rmult_le_compat; try lra. pose proof u64f_bounds. lra.
  - apply Rle_trans with (rnd (P2 (-1022))); [apply rnd_le; lra|]. rewrite rnd_bpow by (zl).
    assert (P2 (-1022) <= P2 0) by (apply bpow_le; lia). change (P2 0) with 1 in H. lra.
Qed.
Lemma rnd_down x k : (0 <= k <= 1000)%Z -> - P2 k <= x -> - P2 k <= rnd x.
Proof.
  intros Hk Hx. apply Rle_trans with (rnd (- P2 k)); [|now apply rnd_le].
  apply Req_le. symmetry. apply round_generic; auto with typeclass_instances. apply generic_format_opp, fmt_bpow. lia.
Qed.
Lemma rnd_le_Z x z : (Z.abs z <= 9007199254740992)%Z -> x <= IZR z -> rnd x <= IZR z.
Proof. intros Hz Hx. rewrite <- (rnd_Z z) by exact Hz. now apply rnd_le. Qed.
Lemma rnd_le_p x k : (-1000 <= k <= 1000)%Z -> x <= P2 k -> rnd x <= P2 k.
Proof. intros Hk Hx. rewrite <- (rnd_bpow k) by (zl). now apply rnd_le. Qed.
Lemma rnd_ge_p x k : (-1000 <= k <= 1000)%Z -> P2 k <= x -> P2 k <= rnd x.
Proof. intros Hk Hx. rewrite <- (rnd_bpow k) by (zl). now apply rnd_le. Qed.
Lemma small_lo x k : (0 <= k <= 1000)%Z -> - P2 k <= x <= P2 k -> small x.
Proof. intros Hk Hx. unfold small. apply Rle_trans with (P2 k); [apply Rabs_le; lra|apply bpow_le; lia]. Qed.
Lemma p_le j k : (j <= k)%Z -> P2 j <= P2 k.
Proof. apply bpow_le. Qed.

(** ** A duration *)
Lemma f1e9 : finite (f_of_Z 1000000000) = true /\ val (f_of_Z 1000000000) = 1000000000.
Proof. apply f_of_Z_exact. lia. Qed.
Lemma seconds_ok d : (0 <= d <= 1000000000000000)%Z ->
  finite (seconds d) = true /\ 0 <= val (seconds d) <= 1000000 /\ val (seconds d) <= 1.001 * (IZR d / 1000000000).
Proof.
  intros Hd. destruct f1e9 as [F1 F2]. destruct (f_of_Z_exact d) as [D1 D2]; [zl|].
  assert (Hq : 0 <= IZR d / 1000000000 <= 1000000).
  { destruct Hd as [H1 H2]. apply IZR_le in H1. apply IZR_le in H2. lra. }
  destruct (fdiv_ok (f_of_Z d) (f_of_Z 1000000000)) as [G1 G2]; auto; [lra| |].
  { rewrite D2, F2. apply (small_lo _ 20); [zl|]. change (P2 20) with 1048576. lra. }
  rewrite D2, F2 in G2. unfold seconds. rewrite G2. split; [exact G1|]. split; [split|].
  - apply rnd_ge0. lra.
  - apply (rnd_le_Z _ 1000000); [zl|apply Hq].
  - destruct (Z.eq_dec d 0) as [->|Hn]; [replace (IZR 0 / 1000000000) with 0 by lra; rewrite rnd_0; lra|].
    assert (H1 : 1 <= IZR d) by (apply IZR_le; lia).
    destruct (rnd_rel_pos (IZR d / 1000000000)) as [_ H].
    { right. apply Rle_trans with (P2 (-30)); [apply bpow_le; lia|]. change (P2 (-30)) with (/ 1073741824). lra. }
    eapply Rle_trans; [exact H|]. pose proof u64f_bounds. rewrite Rmult_comm. apply Rmult_le_compat_r; lra.
Qed.
Lemma rtt_ok r : usable_rtt r -> finite (seconds r) = true /\ (P2 (-30) <= val (seconds r) \/ val (seconds r) <= - P2 (-30)).
Proof.
  intros [Hn Hr]. destruct f1e9 as [F1 F2]. destruct (f_of_Z_ok r) as [D1 D2]; [zl|].
  assert (Hs : - P2 63 <= rnd (IZR r) <= P2 63).
  { assert (H : - P2 63 <= IZR r <= P2 63). { rewrite p63. split; [apply (IZR_le (-9223372036854775808))|apply IZR_le]; lia. }
    split; [apply rnd_down; [zl|lra]|apply rnd_le_p; [zl|lra]]. }
  destruct (fdiv_ok (f_of_Z r) (f_of_Z 1000000000)) as [G1 G2]; auto; [lra| |].
  { rewrite D2, F2. apply (small_lo _ 63); [zl|]. lra. }
  rewrite D2, F2 in G2. unfold seconds. rewrite G2. split; [exact G1|].
  assert (E : P2 (-30) = / 1073741824) by reflexivity.
  destruct (Z_lt_le_dec 0 r) as [Hp|Hp].
  - left. apply rnd_ge_p; [zl|]. assert (1 <= rnd (IZR r)); [|lra].
    rewrite <- (rnd_Z 1) by (zl). apply rnd_le, IZR_le. lia.
  - right. replace (rnd (rnd (IZR r) / 1000000000)) with (- rnd (- (rnd (IZR r) / 1000000000))).
    2: { rewrite round_NE_opp. apply Ropp_involutive. }
    apply Ropp_le_contravar. apply rnd_ge_p; [zl|]. assert (rnd (IZR r) <= -1); [|lra].
    rewrite <- (rnd_Z (-1)) by (zl). apply rnd_le, IZR_le. lia.
Qed.

Lemma C_ok : finite CUBIC_C = true /\ / 4 <= val CUBIC_C <= 0.41.
Proof.
  destruct (f_of_Z_exact 4) as [A1 A2]; [zl|]. destruct (f_of_Z_exact 10) as [B1 B2]; [zl|].
  destruct (fdiv_ok (f_of_Z 4) (f_of_Z 10)) as [G1 G2]; auto; [lra| |].
  { rewrite A2, B2. apply (small_lo _ 0); [zl|]. change (P2 0) with 1. lra. }
  rewrite A2, B2 in G2. unfold CUBIC_C. rewrite G2. split; [exact G1|]. split.
  - change (/ 4) with (P2 (-2)). apply rnd_ge_p; [zl|]. change (P2 (-2)) with (/ 4). lra.
  - destruct (rnd_rel_pos (4 / 10)) as [_ H].
    { right. apply Rle_trans with (P2 (-2)); [apply bpow_le; lia|]. change (P2 (-2)) with (/ 4). lra. }
    pose proof u64f_bounds. lra.
Qed.

Section Upper.
Variables cbrt pow3 : f64 -> f64.
Variable o : cubic_opts.
Hypothesis Hroot : root_like cbrt.
Hypothesis Hcube : cube_like pow3.
Hypothesis Hb : finite (cu_beta o) = true.
Hypothesis Hb01 : 0 <= val (cu_beta o) <= 1.

Lemma one_minus : finite (fsub (f_of_Z 1) (cu_beta o)) = true /\ 0 <= val (fsub (f_of_Z 1) (cu_beta o)) <= 1.
Proof.
  destruct f1_ok as [F1 F2]. destruct (fsub_ok (f_of_Z 1) (cu_beta o)) as [G1 G2]; auto.
  { rewrite F2. apply (small_lo _ 0); [zl|]. change (P2 0) with 1. lra. }
  rewrite G2, F2. split; [exact G1|]. split; [apply rnd_ge0; lra|]. apply (rnd_le_Z _ 1); [zl|lra].
Qed.
Lemma one_plus : finite (fadd (f_of_Z 1) (cu_beta o)) = true /\ 1 <= val (fadd (f_of_Z 1) (cu_beta o)) <= 2.
Proof.
  destruct f1_ok as [F1 F2]. destruct (fadd_ok (f_of_Z 1) (cu_beta o)) as [G1 G2]; auto.
  { rewrite F2. apply (small_lo _ 1); [zl|]. change (P2 1) with 2. lra. }
  rewrite G2, F2. split; [exact G1|]. split; [|apply (rnd_le_Z _ 2); [zl|lra]].
  rewrite <- (rnd_Z 1) at 1 by (zl). apply rnd_le. lra.
Qed.
Lemma coef : let m := fdiv (fmul (f_of_Z 3) (fsub (f_of_Z 1) (cu_beta o))) (fadd (f_of_Z 1) (cu_beta o)) in
  finite m = true /\ 0 <= val m <= 3.
Proof.
  cbv zeta. destruct one_minus as [A1 A2]. destruct one_plus as [B1 B2]. destruct (f_of_Z_exact 3) as [T1 T2]; [zl|].
  destruct (fmul_ok (f_of_Z 3) (fsub (f_of_Z 1) (cu_beta o))) as [G1 G2]; auto.
  { rewrite T2. apply (small_lo _ 2); [zl|]. change (P2 2) with 4. lra. }
  rewrite T2 in G2. set (p := fmul _ _) in *.
  assert (Hp : 0 <= val p <= 3). { rewrite G2. split; [apply rnd_ge0; lra|apply (rnd_le_Z _ 3); [zl|lra]]. }
  set (q := fadd _ _) in *.
  assert (Hq : 0 <= val p / val q <= 3).
  { split; [apply Rle_mult_inv_pos; lra|]. apply Rmult_le_reg_r with (val q); [lra|]. unfold Rdiv. rewrite Rmult_assoc, Rinv_l by lra. nra. }
  destruct (fdiv_ok p q) as [D1 D2]; auto; [lra| |].
  { apply (small_lo _ 2); [zl|]. change (P2 2) with 4. lra. }
  rewrite D2. split; [exact D1|]. split; [apply rnd_ge0; lra|apply (rnd_le_Z _ 3); [zl|lra]].
Qed.

(** ** The two targets *)
Lemma w_cubic_ok wmax d : finite wmax = true -> 0 <= val wmax <= 1152921504606846976 -> (0 <= d <= 1000000000000000)%Z ->
  let w := fadd (fmul CUBIC_C (pow3 (fsub (seconds d) (cbrt (fdiv (fmul wmax (fsub (f_of_Z 1) (cu_beta o))) CUBIC_C))))) wmax in
  finite w = true /\ - P2 201 <= val w <= val wmax + (IZR d / 1000000000) ^ 3 + 1025.
Proof.
  intros W1 W2 Hd. cbv zeta. destruct (seconds_ok d Hd) as (T1 & T2 & T3). destruct one_minus as [A1 A2]. destruct C_ok as [C1 C2].
  set (tau := IZR d / 1000000000) in *. set (t := seconds d) in *.
  assert (Ht0 : 0 <= tau). { unfold tau. destruct Hd as [H1 _]. apply IZR_le in H1. lra. }
  assert (Ht6 : tau <= 1000000). { unfold tau. destruct Hd as [_ H1]. apply IZR_le in H1. lra. }
  destruct (mul_le1 wmax _ W1 ltac:(lra) A1 A2) as [M1 M2]. set (a := fmul wmax _) in *.
  pose proof p64 as E64. pose proof p65 as E65.
  assert (Hq : 0 <= val a / val CUBIC_C <= P2 64).
  { split; [apply Rle_mult_inv_pos; lra|]. rewrite E64. apply Rmult_le_reg_r with (val CUBIC_C); [lra|]. unfold Rdiv. rewrite Rmult_assoc, Rinv_l by lra. lra. }
  destruct (fdiv_ok a CUBIC_C) as [Q1 Q2]; auto; [lra|apply (small_lo _ 64); [zl|lra]|].
  set (q := fdiv a CUBIC_C) in *.
  assert (Hqv : 0 <= val q <= P2 64). { rewrite Q2. split; [apply rnd_ge0; lra|apply rnd_le_p; [zl|lra]]. }
  destruct (Hroot q Q1 Hqv) as [K1 K2]. set (k := cbrt q) in *.
  destruct (fsub_ok t k) as [S1 S2]; auto; [apply (small_lo _ 65); [zl|lra]|].
  set (s := fsub t k) in *.
  assert (Hs : - P2 65 <= val s <= val t).
  { rewrite S2. split; [apply rnd_down; [zl|lra]|]. apply Rle_trans with (rnd (val t)); [apply rnd_le; lra|rewrite rnd_val; lra]. }
  destruct (Hcube s S1 ltac:(lra)) as [P1 [P3 P4]]. set (p := pow3 s) in *.
  assert (Hcub : Rmax 0 (val s) ^ 3 <= 1.01 * tau ^ 3).
  { apply Rle_trans with ((1.001 * tau) ^ 3).
    - apply pow_incr. split; [apply Rmax_l|]. apply Rmax_lub; lra.
    - rewrite Rpow_mult_distr. apply Rmult_le_compat_r; [now apply pow_le|lra]. }
  assert (Ht3 : 0 <= tau ^ 3 <= 1000000000000000000).
  { split; [now apply pow_le|]. replace 1000000000000000000 with (1000000 ^ 3) by lra. apply pow_incr. split; assumption. }
  set (c3 := tau ^ 3) in *. clearbody c3.
  assert (Hbig : 0 < P2 200) by apply bpow_gt_0.
  assert (Hcp : - P2 200 <= val CUBIC_C * val p <= c3 + 1).
  { split.
    - destruct (Rle_dec 0 (val p)); [apply Rle_trans with 0; [lra|apply Rmult_le_pos; lra]|].
      assert (0 <= (1 - val CUBIC_C) * - val p) by (apply Rmult_le_pos; lra). lra.
    - destruct (Rle_dec 0 (val p)).
      + apply Rle_trans with (0.41 * (2 * (1.01 * c3) + 1)); [|lra]. apply Rmult_le_compat; lra.
      + apply Rle_trans with 0; [|lra]. rewrite <- (Rmult_0_r (val CUBIC_C)). apply Rmult_le_compat_l; lra. }
  assert (E61 := p61).
  assert (H200 : P2 64 <= P2 200) by (apply p_le; zl).
  destruct (fmul_ok CUBIC_C p) as [G1 G2]; auto; [apply (small_lo _ 200); [zl|lra]|].
  set (c := fmul CUBIC_C p) in *.
  assert (Hc : - P2 200 <= val c <= c3 + 513).
  { rewrite G2. split; [apply rnd_down; [zl|lra]|]. replace (c3 + 513) with (c3 + 1 + 512) by lra. apply rnd_up; lra. }
  assert (H201 : P2 200 <= P2 201) by (apply p_le; zl).
  destruct (fadd_ok c wmax) as [X1 X2]; auto; [apply (small_lo _ 201); [zl|lra]|].
  split; [exact X1|]. rewrite X2. split; [apply rnd_down; [zl|lra]|].
  replace (val wmax + c3 + 1025) with (val wmax + c3 + 513 + 512) by lra. apply rnd_up; lra.
Qed.

Lemma w_est_ok wmax d r : finite wmax = true -> 0 <= val wmax <= 1152921504606846976 -> (0 <= d <= 1000000000000000)%Z -> usable_rtt r ->
  let w := fadd (fmul wmax (cu_beta o)) (fmul (fdiv (fmul (f_of_Z 3) (fsub (f_of_Z 1) (cu_beta o))) (fadd (f_of_Z 1) (cu_beta o))) (fdiv (seconds d) (seconds r))) in
  finite w = true /\ - P2 201 <= val w <= val wmax + 4294967296 * (IZR d / 1000000000) + 2560.
Proof.
  intros W1 W2 Hd Hr. cbv zeta. destruct (seconds_ok d Hd) as (T1 & T2 & T3). destruct (rtt_ok r Hr) as [R1 R2]. destruct coef as [C1 C2].
  set (m := fdiv (fmul _ _) _) in *. set (tau := IZR d / 1000000000) in *. set (t := seconds d) in *. set (rt := seconds r) in *.
  assert (Ht0 : 0 <= tau). { unfold tau. destruct Hd as [H1 _]. apply IZR_le in H1. lra. }
  assert (Ht6 : tau <= 1000000). { unfold tau. destruct Hd as [_ H1]. apply IZR_le in H1. lra. }
  assert (E30 : P2 (-30) = / 1073741824) by reflexivity. rewrite E30 in R2.
  assert (Hq : - (1073741824 * val t) <= val t / val rt <= 1073741824 * val t).
  { assert (H : - 1073741824 <= / val rt <= 1073741824).
    { destruct R2 as [R2|R2].
      - split; [assert (0 < / val rt) by (apply Rinv_0_lt_compat; lra); lra|].
        rewrite <- (Rinv_inv 1073741824). apply Rinv_le_contravar; lra.
      - assert (E : / val rt = - / (- val rt)) by (field; lra). rewrite E.
        assert (0 < / - val rt) by (apply Rinv_0_lt_compat; lra).
        assert (/ - val rt <= 1073741824); [|lra]. rewrite <- (Rinv_inv 1073741824). apply Rinv_le_contravar; lra. }
    unfold Rdiv. split; nra. }
  pose proof p61 as E61.
  destruct (fdiv_ok t rt) as [D1 D2]; auto; [lra|apply (small_lo _ 61); [zl|lra]|].
  set (x := fdiv t rt) in *.
  assert (E51 : P2 51 = 2251799813685248) by reflexivity.
  assert (Hx : - P2 51 <= val x <= 1073741824 * val t + 512).
  { rewrite D2. split; [apply rnd_down; [zl|lra]|]. apply rnd_up; lra. }
  assert (Hmx : - P2 61 <= val m * val x <= 3 * (1073741824 * val t + 512)).
  { rewrite E61. split.
    - destruct (Rle_dec 0 (val x)); [apply Rle_trans with 0; [lra|apply Rmult_le_pos; lra]|].
      assert (0 <= (3 - val m) * - val x) by (apply Rmult_le_pos; lra). lra.
    - destruct (Rle_dec 0 (val x)); [apply Rmult_le_compat; lra|]. apply Rle_trans with 0; [|lra].
      rewrite <- (Rmult_0_r (val m)). apply Rmult_le_compat_l; lra. }
  destruct (fmul_ok m x) as [G1 G2]; auto; [apply (small_lo _ 61); [zl|lra]|].
  set (y := fmul m x) in *.
  assert (Hy : - P2 61 <= val y <= 3 * (1073741824 * val t + 512) + 512).
  { rewrite G2. split; [apply rnd_down; [zl|lra]|]. apply rnd_up; lra. }
  destruct (mul_le1 wmax _ W1 ltac:(lra) Hb Hb01) as [M1 M2]. set (e := fmul wmax _) in *.
  assert (H201 : P2 63 <= P2 201) by (apply p_le; zl). rewrite p63 in H201.
  destruct (fadd_ok e y) as [X1 X2]; auto; [apply (small_lo _ 201); [zl|lra]|].
  split; [exact X1|]. rewrite X2. split; [apply rnd_down; [zl|lra]|].
  replace (val wmax + 4294967296 * tau + 2560) with (val wmax + 4294967296 * tau + 2048 + 512) by lra. apply rnd_up; lra.
Qed.

(** ** One step *)
Lemma adapt_ok tg c g : finite tg = true -> - P2 201 <= val tg <= g -> 0 <= g <= 1152921504606846976 ->
  finite c = true -> 1 <= val c <= 1152921504606846976 ->
  let c' := fadd c (fdiv (fmax f0 (fsub tg c)) c) in finite c' = true /\ val c' <= Rmax (val c) g + 1024.
Proof.
  intros T1 T2 G C1 C2. cbv zeta. pose proof p61 as E61.
  assert (H202 : P2 201 + P2 201 = P2 202). { change 202%Z with (1 + 201)%Z. rewrite bpow_plus. change (P2 1) with 2. lra. }
  assert (H61 : P2 61 <= P2 201) by (apply p_le; zl).
  destruct (fsub_ok tg c) as [S1 S2]; auto; [apply (small_lo _ 202); [zl|lra]|].
  set (i := fsub tg c) in *. set (m := Rmax (val c) g).
  assert (Hm : val c <= m /\ g <= m) by (split; [apply Rmax_l|apply Rmax_r]).
  assert (Hm2 : m <= 1152921504606846976) by (apply Rmax_lub; lra).
  assert (Hi : val i <= m - val c + 512) by (rewrite S2; apply rnd_up; lra).
  destruct (fmax_le f0 i (m - val c + 512)) as [I1 I2]; auto; [cbn; lra|].
  assert (I0 : 0 <= val (fmax f0 i)).
  { destruct (fmax_atleast 0 f0 i) as [[_ H]|H]; [reflexivity|cbn; lra|exact H|rewrite H in I1; discriminate]. }
  set (n := fmax f0 i) in *.
  assert (Hq : 0 <= val n / val c <= val n).
  { split; [apply Rle_mult_inv_pos; lra|]. apply Rmult_le_reg_r with (val c); [lra|]. unfold Rdiv. rewrite Rmult_assoc, Rinv_l by lra. nra. }
  destruct (fdiv_ok n c) as [D1 D2]; auto; [lra|apply (small_lo _ 61); [zl|lra]|].
  set (d := fdiv n c) in *.
  assert (Hd : 0 <= val d <= val n). { rewrite D2. split; [apply rnd_ge0; lra|]. apply Rle_trans with (rnd (val n)); [apply rnd_le; lra|rewrite rnd_val; lra]. }
  destruct (fadd_ok c d) as [X1 X2]; auto; [apply (small_lo _ 61); [zl|lra]|].
  split; [exact X1|]. rewrite X2. replace (m + 1024) with (m + 512 + 512) by lra. apply rnd_up; lra.
Qed.
End Upper.
