From Verif Require Import Base PingModel PingProofs DumpModel DumpSpec DumpProofs2 Double ThroughputModel.
From Coq Require Import String Reals Lra Lia.
From Coq Require Import List.
From Flocq Require Import Core BinarySingleNaN.
Import ListNotations.
Local Open Scope R_scope.
Local Open Scope list_scope.

Lemma div_half_even_close a b : (0 < b)%Z -> Rabs (IZR (div_half_even a b) - IZR a / IZR b) <= / 2.
Proof.
  intros Hb. pose proof (Z.div_mod a b ltac:(lia)) as E. pose proof (Z.mod_pos_bound a b Hb) as B.
  assert (Hb' : 0 < IZR b) by (apply IZR_lt; lia).
  assert (Ea : IZR a / IZR b = IZR (a / b) + IZR (a mod b) / IZR b).
  { rewrite E at 1. rewrite plus_IZR, mult_IZR. field. lra. }
  rewrite Ea. set (f := IZR (a mod b) / IZR b).
  assert (F0 : 0 <= f) by (apply Rmult_le_pos; [apply IZR_le; lia|apply Rlt_le, Rinv_0_lt_compat; lra]).
  assert (F : f * IZR b = IZR (a mod b)) by (unfold f; field; lra).
  assert (F1 : f <= 1). { apply Rmult_le_reg_r with (IZR b); [lra|]. rewrite F, Rmult_1_l. apply IZR_le. lia. }
  unfold div_half_even. destruct (Z.ltb_spec (2 * (a mod b)) b) as [L|L].
  - assert (f <= / 2). { apply Rmult_le_reg_r with (2 * IZR b); [lra|]. replace (f * (2 * IZR b)) with (2 * (f * IZR b)) by ring. rewrite F. replace (/ 2 * (2 * IZR b)) with (IZR b) by field. rewrite <- mult_IZR. apply IZR_le. lia. }
    apply Rabs_le. lra.
  - assert (Hge : / 2 <= f). { apply Rmult_le_reg_r with (2 * IZR b); [lra|]. replace (f * (2 * IZR b)) with (2 * (f * IZR b)) by ring. rewrite F. replace (/ 2 * (2 * IZR b)) with (IZR b) by field. rewrite <- mult_IZR. apply IZR_le. lia. }
    destruct (Z.ltb_spec b (2 * (a mod b))) as [G|G].
    + rewrite plus_IZR. apply Rabs_le. lra.
    + assert (f = / 2). { apply Rmult_eq_reg_r with (2 * IZR b); [|lra]. replace (f * (2 * IZR b)) with (2 * (f * IZR b)) by ring. rewrite F. replace (/ 2 * (2 * IZR b)) with (IZR b) by field. rewrite <- mult_IZR. f_equal. lia. }
      destruct (Z.even (a / b)); rewrite ?plus_IZR; apply Rabs_le; lra.
Qed.

Lemma millionths_close m e : Rabs (IZR (millionths m e) - IZR (Zpos m) * bpow radix2 e * 1000000) <= / 2.
Proof.
  unfold millionths. destruct (Z.leb_spec 0 e) as [H|H].
  - change (2 ^ e)%Z with (radix2 ^ e)%Z. rewrite !mult_IZR, (IZR_Zpower radix2 e H). rewrite Rminus_diag_eq by reflexivity. rewrite Rabs_R0. lra.
  - replace (IZR (Zpos m) * bpow radix2 e * 1000000) with (IZR (Zpos m * 1000000) / IZR (2 ^ (- e))).
    + apply div_half_even_close. apply Z.pow_pos_nonneg; lia.
    + change (2 ^ (- e))%Z with (radix2 ^ (- e))%Z. rewrite mult_IZR, (IZR_Zpower radix2 (- e)) by lia. rewrite bpow_opp. field. pose proof (bpow_gt_0 radix2 e). lra.
Qed.
Lemma millionths_pos m e : (0 <= millionths m e)%Z.
Proof.
  unfold millionths, div_half_even. destruct (Z.leb_spec 0 e) as [H|H].
  - pose proof (Z.pow_nonneg 2 e). lia.
  - assert (0 < 2 ^ (- e))%Z by (apply Z.pow_pos_nonneg; lia).
    assert (0 <= (Z.pos m * 1000000) / 2 ^ (- e))%Z by (apply Z.div_pos; lia).
    destruct (_ <? _)%Z; [lia|]. destruct (_ <? _)%Z; [lia|]. destruct (Z.even _); lia.
Qed.

(** ** Digits *)
Lemma digits_decimal n : digits n <> [] /\ decimal (digits n) n.
Proof.
  unfold digits. set (k := N.to_nat (N.log2 n)).
  assert (Hn : (n < 10 ^ N.of_nat (S k))%N).
  { destruct (N.eq_0_gt_0_cases n) as [->|H]; [cbn; lia|]. pose proof (N.log2_spec n H) as [_ L].
    eapply N.lt_le_trans; [exact L|]. unfold k. rewrite Nat2N.inj_succ, N2Nat.id. apply N.pow_le_mono_l. lia. }
  split.
  - cbn [dec_aux]. destruct (n <? 10)%N; [discriminate|]. apply (dec_aux_nonempty k). discriminate.
  - split; [|apply (of_dec_aux (S k) n []); [exact Hn|lia]].
    apply dec_aux_digits. constructor.
Qed.

(** [t] is the decimal fraction n / 10^6 with six decimals *)
Definition fraction6 (t : text) (n : Z) : Prop :=
  (0 <= n)%Z /\ exists s f, t = s ++ str "." ++ f /\ s <> [] /\ decimal s (Z.to_N (n / 1000000)) /\
                            length f = 6%nat /\ decimal f (Z.to_N (n mod 1000000)).
Lemma fixed6_fraction n : (0 <= n)%Z -> fraction6 (fixed6 n) n.
Proof.
  intros H. split; [exact H|]. exists (digits (Z.to_N (n / 1000000))), (pad6 (to_string (Z.to_N (n mod 1000000)))).
  destruct (digits_decimal (Z.to_N (n / 1000000))) as [D1 D2].
  assert (B : (0 <= n mod 1000000 < 1000000)%Z) by (apply Z.mod_pos_bound; lia). destruct (pad6_decimal (Z.to_N (n mod 1000000))) as [P1 P2]; [lia|].
  split; [reflexivity|]. auto.
Qed.
Lemma to_string_double_close x : is_finite x = true -> Bsign x = false ->
  exists n, fraction6 (to_string_double x) n /\ Rabs (IZR n - val x * 1000000) <= / 2.
Proof.
  destruct x as [s|s| |s m e He]; try discriminate; intros _ S; cbn in S; subst s.
  - exists 0%Z. split; [now apply (fixed6_fraction 0)|]. cbn. rewrite Rmult_0_l, Rminus_0_r, Rabs_R0. lra.
  - exists (millionths m e). split; [apply fixed6_fraction, millionths_pos|]. exact (millionths_close m e).
Qed.

(** ** Scaling *)
Lemma thousand : is_finite (f_of_Z 1000) = true /\ val (f_of_Z 1000) = 1000.
Proof. apply f_of_Z_exact. lia. Qed.

Lemma negative_val (x : f64) : Bsign x = true -> val x <= 0.
Proof.
  destruct x as [s|s| |s m e He]; cbn [Bsign B2R]; intros H; try lra. subst s. apply F2R_le_0. cbn. lia.
Qed.
Lemma div1000 x : is_finite x = true -> Bsign x = false -> 1000 <= val x ->
  let y := fdiv x (f_of_Z 1000) in
  is_finite y = true /\ Bsign y = false /\ 1 <= val y /\
  val x / 1000 * (1 - u64f) <= val y <= val x / 1000 * (1 + u64f).
Proof.
  intros F S H. destruct thousand as [T1 T2]. cbv zeta.
  assert (Sm : small (val x / val (f_of_Z 1000))).
  { unfold small. rewrite T2, Rabs_pos_eq by lra. pose proof (abs_B2R_lt_emax 53 1024 x) as E. rewrite Rabs_pos_eq in E by lra.
    assert (B : bpow radix2 1024 = 2 * bpow radix2 1023) by exact (bpow_plus radix2 1 1023). pose proof (bpow_gt_0 radix2 1023) as P. lra. }
  destruct (fdiv_ok x (f_of_Z 1000) F) as [D1 D2]; [lra|exact Sm|]. rewrite T2 in D2.
  assert (G : 1 <= val (fdiv x (f_of_Z 1000))).
  { rewrite D2. rewrite <- (rnd_Z 1) by lia. apply rnd_le. lra. }
  split; [exact D1|]. split.
  { destruct (Bsign (fdiv x (f_of_Z 1000))) eqn:N; [|reflexivity]. apply negative_val in N. lra. }
  split; [exact G|]. rewrite D2. apply rnd_rel_pos. right.
  apply Rle_trans with 1; [change 1 with (bpow radix2 0); apply bpow_le; lia|lra].
Qed.

Lemma scale_ok k : forall x y p, is_finite x = true -> Bsign x = false -> 0 <= val x -> scale k x = (y, p) ->
  is_finite y = true /\ Bsign y = false /\ 0 <= val y /\ (p <= k)%nat /\ ((p < k)%nat -> val y < 1000) /\ ((0 < p)%nat -> 1 <= val y) /\
  val x * (1 - u64f) ^ p <= val y * 1000 ^ p <= val x * (1 + u64f) ^ p.
Proof.
  induction k as [|k IH]; intros x y p F S H E; cbn [scale] in E.
  - injection E as <- <-. repeat split; auto; try lia; cbn; lra.
  - destruct thousand as [T1 T2]. destruct (fle (f_of_Z 1000) x) eqn:L.
    + apply fle_ok in L; auto. rewrite T2 in L. destruct (div1000 x F S L) as (D1 & D2 & D3 & D4).
      destruct (scale k (fdiv x (f_of_Z 1000))) as [y' p'] eqn:E'. injection E as <- <-.
      destruct (IH _ _ _ D1 D2 ltac:(lra) E') as (I1 & I2 & I3 & I4 & I5 & I6 & I7).
      pose proof u64f_bounds as U.
      assert (P1 : 0 < (1 - u64f) ^ p') by (apply pow_lt; lra). assert (P2 : 0 < (1 + u64f) ^ p') by (apply pow_lt; lra).
      repeat split; auto; try lia.
      * intros Q. apply I5. lia.
      * intros _. destruct p'; [|apply I6; lia]. cbn [pow] in I7. lra.
      * cbn [pow]. apply Rle_trans with (1000 * (val (fdiv x (f_of_Z 1000)) * (1 - u64f) ^ p')); [|nra].
        apply Rle_trans with (1000 * (val x / 1000 * (1 - u64f) * (1 - u64f) ^ p')); [right; field|].
        apply Rmult_le_compat_l; [lra|]. apply Rmult_le_compat_r; lra.
      * cbn [pow]. apply Rle_trans with (1000 * (val (fdiv x (f_of_Z 1000)) * (1 + u64f) ^ p')); [nra|].
        apply Rle_trans with (1000 * (val x / 1000 * (1 + u64f) * (1 + u64f) ^ p')); [|right; field].
        apply Rmult_le_compat_l; [lra|]. apply Rmult_le_compat_r; lra.
    + injection E as <- <-. repeat split; auto; try lia; try (cbn; lra).
      intros _. destruct (Rlt_or_le (val x) 1000) as [|G]; [assumption|]. rewrite <- T2 in G. apply fle_ok in G; auto. congruence.
Qed.

Lemma pow4_close p : (p <= 4)%nat -> 1 - 5 * u64f <= (1 - u64f) ^ p /\ (1 + u64f) ^ p <= 1 + 5 * u64f.
Proof.
  intros H. pose proof u64f_bounds as U. set (u := u64f) in *.
  destruct p as [|[|[|[|[|]]]]]; [..|lia]; cbn [pow]; split; try lra; nra.
Qed.

Lemma format_ok x : is_finite x = true -> Bsign x = false ->
  exists t p n, formatThroughput x = t ++ unit_text p /\ (p <= 4)%nat /\ fraction6 t n /\
    ((p < 4)%nat -> (n <= 1000 * 1000000)%Z) /\ ((0 < p)%nat -> (1000000 <= n)%Z) /\
    Rabs (IZR n / 1000000 * 1000 ^ p - val x) <= 1000 ^ p / 2000000 + val x * (5 * u64f).
Proof.
  intros F S. assert (H : 0 <= val x).
  { destruct x as [s|s| |s m e He]; cbn [B2R Bsign] in *; try lra. subst s. apply F2R_ge_0. cbn. lia. }
  destruct (scale 4 x) as [y p] eqn:E. destruct (scale_ok 4 x y p F S H E) as (I1 & I2 & I3 & I4 & I5 & I6 & I7).
  destruct (to_string_double_close y I1 I2) as (n & N1 & N2).
  exists (to_string_double y), p, n. split.
  { unfold formatThroughput. rewrite E. destruct p as [|[|[|[|[|]]]]]; [reflexivity..|lia]. }
  split; [exact I4|]. split; [exact N1|]. apply Rabs_le_inv in N2. split; [|split].
  - intros L. specialize (I5 L). assert (H0 : IZR n < 1000000001) by lra.
    apply lt_IZR in H0. lia.
  - intros L. specialize (I6 L). assert (H0 : 999999 < IZR n) by lra. apply lt_IZR in H0. lia.
  - destruct (pow4_close p I4) as [Q1 Q2]. assert (P : 0 < 1000 ^ p) by (apply pow_lt; lra).
    set (q := 1000 ^ p) in *. set (a := (1 - u64f) ^ p) in *. set (b := (1 + u64f) ^ p) in *.
    assert (A : val x * (1 - 5 * u64f) <= val x * a) by (apply Rmult_le_compat_l; lra).
    assert (B : val x * b <= val x * (1 + 5 * u64f)) by (apply Rmult_le_compat_l; lra).
    assert (C1 : - (q / 2000000) <= IZR n / 1000000 * q - val y * q).
    { replace (IZR n / 1000000 * q - val y * q) with ((IZR n - val y * 1000000) * (q / 1000000)) by field.
      replace (- (q / 2000000)) with (- / 2 * (q / 1000000)) by field. apply Rmult_le_compat_r; lra. }
    assert (C2 : IZR n / 1000000 * q - val y * q <= q / 2000000).
    { replace (IZR n / 1000000 * q - val y * q) with ((IZR n - val y * 1000000) * (q / 1000000)) by field.
      replace (q / 2000000) with (/ 2 * (q / 1000000)) by field. apply Rmult_le_compat_r; lra. }
    apply Rabs_le. lra.
Qed.
Lemma format_ok' x : is_finite x = true -> Bsign x = false ->
  exists t p n, formatThroughput x = t ++ nth p [str " bit/s"; str " kbit/s"; str " Mbit/s"; str " Gbit/s"; str " Tbit/s"] [] /\
    (p <= 4)%nat /\ fraction6 t n /\
    ((p < 4)%nat -> (n <= 1000 * 1000000)%Z) /\ ((0 < p)%nat -> (1000000 <= n)%Z) /\
    Rabs (IZR n / 1000000 * 1000 ^ p - val x) <= 1000 ^ p / 2000000 + val x * (5 * bpow radix2 (-53)).
Proof.
  intros F S. destruct (format_ok x F S) as (t & p & n & H1 & H2 & H3). exists t, p, n. split; [|split; [exact H2|exact H3]].
  rewrite H1. destruct p as [|[|[|[|[|]]]]]; [reflexivity..|lia].
Qed.
