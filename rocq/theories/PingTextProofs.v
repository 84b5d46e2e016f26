(** Proofs about the output of ndnping. *)
From Verif Require Import Base TlvModel PingModel PingSpec PingProofs Double PingStatsModel PingStatsSpec PingStatsProofs PingStatsProofs2
  DumpModel DumpSpec DumpProofs2 ThroughputModel DecimalModel DecimalSpec DecimalProofs PingTextModel PingTextSpec.
From Coq Require Import String Reals Lra Lia Permutation.
From Coq Require Import List.
From Flocq Require Import Core BinarySingleNaN.
Import ListNotations.
Local Open Scope R_scope.
Local Open Scope list_scope.

(** * Numbers *)
Lemma shows_double v tol tol' x : finite v = true -> 0 <= x -> 0 <= tol <= / 1000 ->
  Rabs (val v - x) <= tol * x -> 5 / 1000000 * (1 + tol) + tol <= tol' -> shows (double_text v) tol' x.
Proof.
  intros F Hx Ht C Ht'. exists (six_digit (val v)). split; [now apply double_text_literal|].
  pose proof (six_digit_close (val v)) as D. apply Rabs_le_inv in C.
  assert (0 <= val v) by nra. rewrite (Rabs_pos_eq (val v)) in D by assumption. apply Rabs_le_inv in D. apply Rabs_le. nra.
Qed.
Lemma p51 : bpow radix2 (-51) <= / 1000000000000000.
Proof. simpl. lra. Qed.
Lemma p52 : bpow radix2 (-52) = / 2 ^ 52.
Proof. simpl. lra. Qed.
Lemma p52' : bpow radix2 (-52) <= / 4500000000000000.
Proof. simpl. lra. Qed.
Lemma shows_close51 v x : finite v = true -> 0 <= x -> Rabs (val v - x) <= bpow radix2 (-51) * x -> shows (double_text v) (51 / 10000000) x.
Proof.
  intros F Hx C. pose proof p51. pose proof (bpow_ge_0 radix2 (-51)).
  apply (shows_double v (bpow radix2 (-51))); auto; lra.
Qed.
Lemma rtt_shown r : (r < 9223372036854775808)%N -> shows (double_text (rtt_ms r)) (51 / 10000000) (exact_ms r).
Proof.
  intros Hr. destruct (rtt_ms_ok r Hr) as (F & _ & _ & _ & B). apply shows_close51; [exact F|apply exact_ge0|].
  apply pow2_close; [apply exact_ge0|exact B].
Qed.

(** a percentage *)
Lemma f100 : finite (f_of_Z 100) = true /\ val (f_of_Z 100) = 100.
Proof. destruct (f_of_Z_exact 100); [lia|]. auto. Qed.
Lemma six_digit_100 : six_digit 100 = 100.
Proof.
  apply round_generic; [auto with typeclass_instances|]. apply generic_format_FLX. exists (Float radix10 100 0); [unfold F2R; simpl; lra|]. reflexivity.
Qed.
Lemma percent_shown v part whole : finite v = true -> 0 <= val v <= 1 -> (val v = 0 <-> part = 0%nat) -> (val v = 1 <-> part = whole) ->
  (part = 0%nat \/ bpow radix2 (-40) <= val v) -> 0 <= INR part / INR whole <= 1 ->
  Rabs (val v - INR part / INR whole) <= bpow radix2 (-53) ->
  shows_percent (double_text (fmul v (f_of_Z 100))) part whole.
Proof.
  intros F B Z O Hlo Hq C. destruct f100 as [F1 F2].
  assert (Hs : Rabs (val v * val (f_of_Z 100)) <= bpow radix2 7).
  { rewrite F2, Rabs_pos_eq by lra. simpl. lra. }
  destruct (fmul_ok v (f_of_Z 100) F F1) as [M1 M2].
  { unfold small. eapply Rle_trans; [exact Hs|]. apply bpow_le. lia. }
  rewrite F2 in M2. set (w := fmul v (f_of_Z 100)) in *.
  exists (six_digit (val w)). split; [now apply double_text_literal|].
  assert (W0 : 0 <= val w) by (rewrite M2; apply rnd_ge0; lra).
  assert (W1 : val w <= 100). { rewrite M2. apply Rle_trans with (rnd 100); [apply rnd_le; lra|]. right. apply (rnd_Z 100). lia. }
  assert (WE : Rabs (val w - val v * 100) <= / 1000000000).
  { rewrite M2. eapply Rle_trans; [apply rnd_err|]. rewrite (Rabs_pos_eq (val v * 100)) by lra. pose proof u64f_bounds.
    assert (u64f <= / 4000000000000) by (unfold u64f; simpl; lra).
    assert (bpow radix2 (-1075) <= bpow radix2 (-53)) by (apply bpow_le; lia). assert (bpow radix2 (-53) <= / 4000000000000) by (simpl; lra). nra. }
  pose proof (six_digit_close (val w)) as D. rewrite (Rabs_pos_eq (val w)) in D by assumption.
  split; [|split; [split|split]].
  - apply Rabs_le_inv in WE. apply Rabs_le_inv in D. apply Rabs_le_inv in C.
    assert (bpow radix2 (-53) <= / 4000000000000) by (simpl; lra).
    replace (100 * INR part / INR whole) with (100 * (INR part / INR whole)) by (unfold Rdiv; ring). apply Rabs_le. lra.
  - now apply six_digit_ge0.
  - rewrite <- six_digit_100. now apply six_digit_le.
  - split.
    + intros E. destruct Hlo as [H|H]; [exact H|exfalso]. assert (0 < val w).
      { rewrite M2. apply Rlt_le_trans with (bpow radix2 (-40)); [apply bpow_gt_0|].
        assert (E40 : rnd (1 * bpow radix2 (-40)) = 1 * bpow radix2 (-40)) by (apply (rnd_scaled 1); lia). rewrite Rmult_1_l in E40. rewrite <- E40. apply rnd_le.
        pose proof (bpow_gt_0 radix2 (-40)). lra. }
      pose proof (six_digit_pos _ H0). lra.
    + intros E. apply Z in E. rewrite M2, E, Rmult_0_l, rnd_0. apply six_digit_0.
  - intros E. apply O in E. rewrite M2, E, Rmult_1_l, (rnd_Z 100) by lia. apply six_digit_100.
Qed.

Lemma ratio01 a b : (a <= b)%nat -> (0 < b)%nat -> 0 <= INR a / INR b <= 1.
Proof.
  intros H Hb. apply le_INR in H. apply lt_INR in Hb. simpl in Hb. pose proof (pos_INR a). split.
  - apply Rle_mult_inv_pos; lra.
  - apply Rmult_le_reg_r with (INR b); [lra|]. unfold Rdiv. rewrite Rmult_assoc, Rinv_l by lra. lra.
Qed.
Lemma rate_big (v : f64) a b : (0 < Z.of_nat b < 2147483648)%Z -> Rabs (val v - INR a / INR b) <= bpow radix2 (-53) -> a = 0%nat \/ bpow radix2 (-40) <= val v.
Proof.
  intros Hb C. destruct a as [|a]; [now left|right]. apply Rabs_le_inv in C.
  assert (Hb0 : 0 < INR b) by (rewrite INR_IZR_INZ; apply IZR_lt; lia).
  assert (Hb1 : INR b <= bpow radix2 31) by (rewrite INR_IZR_INZ; change (bpow radix2 31) with (IZR 2147483648); apply IZR_le; lia).
  assert (H : bpow radix2 (-31) <= INR (S a) / INR b).
  { apply Rmult_le_reg_r with (INR b); [lra|]. unfold Rdiv. rewrite Rmult_assoc, Rinv_l, Rmult_1_r by lra.
    apply Rle_trans with (bpow radix2 (-31) * bpow radix2 31); [apply Rmult_le_compat_l; [apply bpow_ge_0|exact Hb1]|].
    rewrite <- bpow_plus. cbn [Z.add bpow Z.pos_sub]. change (bpow radix2 (-31 + 31)) with 1. rewrite S_INR. pose proof (pos_INR a). lra. }
  assert (bpow radix2 (-53) + bpow radix2 (-40) <= bpow radix2 (-31)) by (simpl; lra). lra.
Qed.

(** * The statistics *)
Section Stats.
Variable h : list gobs.
Hypothesis Hpl : plausible h.

Lemma sent_few : (Z.of_nat (length (settled_seqs h)) < 2147483648)%Z.
Proof. pose proof (settled_le h). pose proof (proj2 Hpl). lia. Qed.
Lemma count_ok n : (Z.of_nat n < 2147483648)%Z -> counts (count_text (Z.of_nat n)) n.
Proof.
  intros H. unfold count_text. replace (Z.to_N (Z.of_nat n)) with (N.of_nat n) by lia. split; [apply to_string_nonempty|apply to_string_decimal; lia].
Qed.
Lemma st_count_eq : st_count (stats_of h) =
  Counters (Z.of_nat (length (settled_seqs h))) (Z.of_nat (length (data_seqs h))) (Z.of_nat (length (nack_seqs h))).
Proof. rewrite stats_eq. cbn [st_count]. apply counters_eq. Qed.

Lemma rates_ok : says_rates h (rates_text (stats_of h)).
Proof.
  unfold says_rates, rates_text. rewrite st_count_eq. cbn [n_sent]. pose proof sent_few as Hf. pose proof (settled_split h) as Hs.
  destruct (Z.ltb_spec 0 (Z.of_nat (length (settled_seqs h)))) as [H|H]; [right|left; split; [lia|reflexivity]].
  assert (Hne : settled_seqs h <> []) by (intros E; rewrite E in H; cbn in H; lia).
  split; [lia|]. do 2 eexists. split; [reflexivity|]. split.
  - destruct (loss_rate h Hpl Hne) as (H1 & H2 & H3 & H4 & H5). apply percent_shown; auto; [eapply rate_big; [|exact H5]; lia|apply ratio01; lia].
  - destruct (nack_rate h Hpl Hne) as (H1 & H2 & H3 & H4 & H5). apply percent_shown; auto; [eapply rate_big; [|exact H5]; lia|apply ratio01; lia].
Qed.

Lemma sum_shown : shows (double_text (st_sum (stats_of h))) (6 / 1000000) (Rsum (map exact_ms (rtts h))).
Proof.
  rewrite stats_eq. cbn [st_sum]. pose proof (xs_good h Hpl) as Hg.
  assert (Hn : (Z.of_nat (length (xs h)) <= 2147483648)%Z).
  { rewrite map_length. pose proof (rtts_le h). pose proof (proj2 Hpl). lia. }
  destruct (fsum_bounds (xs h) Hg Hn) as (F & _ & _ & B1 & B2).
  set (S := fsum (xs h)) in *. set (E := Rsum (map exact_ms (rtts h))). set (k := length (xs h)) in *.
  assert (HE : 0 <= E). { apply rsum_ge0. rewrite Forall_map. apply Forall_forall. intros. apply exact_ge0. }
  assert (L : (1 - u) ^ 2 * E <= Rsum (map val (xs h)) <= (1 + u) ^ 2 * E).
  { unfold E. rewrite map_map. destruct Hpl as [Hr _]. clear -Hr. induction Hr as [|r l Hr _ IH]; [cbn; lra|].
    destruct (rtt_ms_ok r Hr) as (_ & _ & _ & _ & B). unfold Rsum in *. cbn [map fold_right]. rewrite !Rmult_plus_distr_l. lra. }
  pose proof u_pos. pose proof u_half.
  assert (C : Rabs (val S - E) <= INR (k + 2) * bpow radix2 (-52) * E).
  { apply pow_close; [exact HE| |].
    - rewrite plus_INR, INR_IZR_INZ. simpl (INR 2). apply IZR_le in Hn. lra.
    - rewrite !pow_add, !Rmult_assoc. split.
      + eapply Rle_trans; [|exact B1]. apply Rmult_le_compat_l; [apply pow_le; lra|apply L].
      + eapply Rle_trans; [exact B2|]. apply Rmult_le_compat_l; [apply pow_le; lra|apply L]. }
  assert (Hk : INR (k + 2) * bpow radix2 (-52) <= / 2000000).
  { apply Rle_trans with (2147483650 * bpow radix2 (-52)); [apply Rmult_le_compat_r; [apply bpow_ge_0|]|pose proof p52'; lra].
    rewrite plus_INR, INR_IZR_INZ. apply IZR_le in Hn. simpl (INR 2). lra. }
  assert (0 <= INR (k + 2) * bpow radix2 (-52)) by (apply Rmult_le_pos; [apply pos_INR|apply bpow_ge_0]).
  eapply shows_double; [exact F|exact HE| |exact C|]; lra.
Qed.

Lemma deviation_shown : rtts h <> [] -> shows_deviation (double_text (stdDevRtt (stats_of h))) h.
Proof.
  intros Hne. destruct (sd_cases' h Hpl Hne) as [[F H0]|H]; [right|left; now rewrite H].
  exists (six_digit (val (stdDevRtt (stats_of h)))). split; [now apply double_text_literal|]. split; [now apply six_digit_ge0|].
  assert (Hnn : is_nan (stdDevRtt (stats_of h)) = false) by (destruct (stdDevRtt (stats_of h)); auto; discriminate).
  pose proof (sd_close h Hpl Hne Hnn) as C. change (PingStatsProofs2.E2 h) with (mean_sq h) in C.
  change (mean_sq h - (PingStatsProofs2.E1 h)²) with (variance h) in C.
  pose proof (six_digit_close (val (stdDevRtt (stats_of h)))) as D. rewrite (Rabs_pos_eq (val _)) in D by assumption.
  set (s := val (stdDevRtt (stats_of h))) in *. set (r := six_digit s) in *.
  assert (Hr : 0 <= r) by now apply six_digit_ge0.
  assert (HM : 0 <= mean_sq h) by (apply rmean_ge0; intros; apply Rle_0_sqr).
  assert (HV : 0 <= variance h). { unfold variance. pose proof (variance_ge0 exact_ms (rtts h) Hne). unfold mean_sq in *. lra. }
  pose proof (n_big h Hpl Hne) as Hn. rewrite p52 in C. unfold Rdiv.
  set (n := INR (length (rtts h))) in *. set (e := / 2 ^ 52) in *. assert (He : 0 < e < / 4000000000000) by (unfold e; simpl; lra).
  apply Rabs_le_inv in D. unfold Rsqr in *.
  assert (R1 : Rabs (r * r - s * s) <= 1001 / 100000000 * (s * s)) by (apply Rabs_le; nra).
  apply Rabs_le_inv in C. apply Rabs_le_inv in R1. set (K := e * mean_sq h) in *.
  assert (HK : 0 <= K) by (apply Rmult_le_pos; lra).
  assert (C1 : - ((3 * n + 20) * K) <= s * s - variance h <= (3 * n + 20) * K) by (unfold K; lra).
  assert ((4 * n + 21) * e * mean_sq h = (4 * n + 21) * K) by (unfold K; ring). rewrite H.
  assert (HnK : K <= n * K) by nra. apply Rabs_le. nra.
Qed.

Lemma rtts_ok intro : says_rtts intro h (rtts_text intro (stats_of h)).
Proof.
  unfold says_rtts, rtts_text. rewrite st_count_eq. cbn [n_received]. rewrite <- rtts_length.
  destruct (Z.ltb_spec 0 (Z.of_nat (length (rtts h)))) as [H|H].
  2: { left. split; [|reflexivity]. destruct (rtts h); [reflexivity|cbn [length] in H; lia]. }
  right. assert (Hne : rtts h <> []) by (intros E; rewrite E in H; cbn in H; lia).
  destruct (min_exact h Hpl Hne) as (lo & L1 & L2 & L3 & L4). destruct (max_exact h Hpl Hne) as (hi & M1 & M2 & M3 & M4).
  destruct (avg_exact h Hpl Hne) as (A1 & A2). pose proof (n_big h Hpl Hne) as Hn.
  exists lo, hi. do 4 eexists. split; [reflexivity|]. split; [exact L1|]. split; [exact M1|]. split; [auto|].
  split; [apply shows_close51; auto; apply exact_ge0|]. split; [apply shows_close51; auto; apply exact_ge0|]. split; [|now apply deviation_shown].
  assert (Hb : 0 <= (INR (length (rtts h)) + 3) * bpow radix2 (-52) <= / 2000000).
  { split; [apply Rmult_le_pos; [lra|apply bpow_ge_0]|]. apply Rle_trans with (2147483651 * bpow radix2 (-52)); [apply Rmult_le_compat_r; [apply bpow_ge_0|lra]|pose proof p52'; lra]. }
  eapply shows_double; [exact A1|apply rmean_ge0; intros; apply exact_ge0| |exact A2|]; lra.
Qed.

Lemma summary_ok : summary h (printSummary (stats_of h)).
Proof.
  unfold summary, printSummary. rewrite st_count_eq. cbn [n_received n_sent]. pose proof sent_few. pose proof (settled_split h).
  do 4 eexists. split; [reflexivity|]. split; [apply count_ok; lia|]. split; [apply count_ok; lia|]. split; [apply rates_ok|apply rtts_ok].
Qed.
Lemma report_ok uri : report uri h (printFull uri (stats_of h)).
Proof.
  unfold report, printFull. rewrite st_count_eq. cbn [n_received n_sent n_nacked]. pose proof sent_few. pose proof (settled_split h).
  do 6 eexists. split; [reflexivity|]. split; [apply count_ok; lia|]. split; [apply count_ok; lia|]. split; [apply count_ok; lia|].
  split; [apply rates_ok|]. split; [apply sum_shown|apply rtts_ok].
Qed.
End Stats.
