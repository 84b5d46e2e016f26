(** Properties of the statistics of ndnping in double arithmetic: C31, C32. *)
From Verif Require Import Base TlvModel PingModel PingSpec PingProofs Double PingStatsModel PingStatsSpec PingStatsProofs PingStatsProofs2.
From Coq Require Import Reals Lra.
From Flocq Require Import Core BinarySingleNaN.
Local Open Scope R_scope.

(** * C31 *)

(** Minimum and maximum are the smallest and largest of the round-trip times (attained up to
    the conversion from nanoseconds to milliseconds, which is accurate to 2^-51). *)
Theorem C31_minimum :
  forall h, plausible h -> rtts h <> [] ->
    exists r, In r (rtts h) /\ (forall r', In r' (rtts h) -> (r <= r')%N) /\
      is_finite (st_min (stats_of h)) = true /\
      Rabs (B2R (st_min (stats_of h)) - exact_ms r) <= bpow radix2 (-51) * exact_ms r.
Proof. exact min_exact. Qed.
Print Assumptions C31_minimum.

Theorem C31_maximum :
  forall h, plausible h -> rtts h <> [] ->
    exists r, In r (rtts h) /\ (forall r', In r' (rtts h) -> (r' <= r)%N) /\
      is_finite (st_max (stats_of h)) = true /\
      Rabs (B2R (st_max (stats_of h)) - exact_ms r) <= bpow radix2 (-51) * exact_ms r.
Proof. exact max_exact. Qed.
Print Assumptions C31_maximum.

(** They are among the individual times that were reported, and bound all of these. *)
Theorem C31_minimum_attained :
  forall h, plausible h -> rtts h <> [] ->
    is_finite (st_min (stats_of h)) = true /\
    (exists r, In r (rtts h) /\ st_min (stats_of h) = rtt_ms r) /\
    (forall r, In r (rtts h) -> B2R (st_min (stats_of h)) <= B2R (rtt_ms r)).
Proof. exact min_spec. Qed.
Print Assumptions C31_minimum_attained.
Theorem C31_maximum_attained :
  forall h, plausible h -> rtts h <> [] ->
    is_finite (st_max (stats_of h)) = true /\
    (exists r, In r (rtts h) /\ B2R (st_max (stats_of h)) = B2R (rtt_ms r)) /\
    (forall r, In r (rtts h) -> B2R (rtt_ms r) <= B2R (st_max (stats_of h))).
Proof. exact max_spec. Qed.
Print Assumptions C31_maximum_attained.

(** The average of n times is accurate to (n+3) * 2^-52 relative to the mean. *)
Theorem C31_average :
  forall h, plausible h -> rtts h <> [] ->
    is_finite (avgRtt (stats_of h)) = true /\
    Rabs (B2R (avgRtt (stats_of h)) - Rmean (map exact_ms (rtts h))) <=
    (INR (length (rtts h)) + 3) * bpow radix2 (-52) * Rmean (map exact_ms (rtts h)).
Proof. exact avg_exact. Qed.
Print Assumptions C31_average.

(** It is between minimum and maximum, up to (n+1) * 2^-52.  Missing from the claim: exactly
    between, see the refutation. *)
Theorem C31_average_between_partial :
  forall h, plausible h -> rtts h <> [] ->
    (1 - (INR (length (rtts h)) + 1) * bpow radix2 (-52)) * B2R (st_min (stats_of h)) <= B2R (avgRtt (stats_of h)) /\
    B2R (avgRtt (stats_of h)) <= (1 + (INR (length (rtts h)) + 1) * bpow radix2 (-52)) * B2R (st_max (stats_of h)).
Proof. exact avg_between. Qed.
Print Assumptions C31_average_between_partial.

(** three pings, each answered after exactly 0.1 ms *)
Definition exO : gopts := GOpts [Comp TGeneric [65%N]] false 3 1 [].
Definition exEs : list gevent := [GeData 1 100000; GeTimer; GeData 2 100000; GeTimer; GeData 3 100000].
Notation exRun := (g_run exO exEs).
Example exRun_ok : g_ended exRun = true /\ rtts (c_hist exRun) = [100000; 100000; 100000]%N /\ plausible (c_hist exRun).
Proof.
  split; [vm_compute; reflexivity|]. split; [vm_compute; reflexivity|]. split; [|vm_compute; reflexivity].
  assert (E : rtts (c_hist exRun) = [100000; 100000; 100000]%N) by (vm_compute; reflexivity). rewrite E.
  repeat constructor.
Qed.

Theorem C31_average_between_refuted :
  exists o es, valid_gopts o /\ g_ended (g_run o es) = true /\
    let h := c_hist (g_run o es) in
    plausible h /\ rtts h <> [] /\ B2R (st_max (stats_of h)) < B2R (avgRtt (stats_of h)).
Proof.
  exists exO, exEs. split; [|split; [exact (proj1 exRun_ok)|]].
  - split; [right; reflexivity|reflexivity].
  - cbn zeta. destruct exRun_ok as (_ & E & Hp). split; [exact Hp|].
    assert (Hne : rtts (c_hist exRun) <> []) by (rewrite E; discriminate). split; [exact Hne|].
    apply flt_ok; [apply max_spec; assumption|apply avg_exact; assumption|]. vm_compute. reflexivity.
Qed.
Print Assumptions C31_average_between_refuted.

(** The share of lost pings is a number from 0 to 1, close to timeouts/sent; it is 0 iff
    nothing timed out, and 1 iff everything did. *)
Theorem C31_loss_rate :
  forall h, plausible h -> settled_seqs h <> [] ->
    let lost := length (timeout_seqs h) in let sent := length (settled_seqs h) in
    let rate := packetLossRate (stats_of h) in
    is_finite rate = true /\ 0 <= B2R rate <= 1 /\
    (B2R rate = 0 <-> lost = 0%nat) /\ (B2R rate = 1 <-> lost = sent) /\
    Rabs (B2R rate - INR lost / INR sent) <= bpow radix2 (-53).
Proof. exact loss_rate. Qed.
Print Assumptions C31_loss_rate.
Theorem C31_nack_rate :
  forall h, plausible h -> settled_seqs h <> [] ->
    let nacked := length (nack_seqs h) in let sent := length (settled_seqs h) in
    let rate := packetNackedRate (stats_of h) in
    is_finite rate = true /\ 0 <= B2R rate <= 1 /\
    (B2R rate = 0 <-> nacked = 0%nat) /\ (B2R rate = 1 <-> nacked = sent) /\
    Rabs (B2R rate - INR nacked / INR sent) <= bpow radix2 (-53).
Proof. exact nack_rate. Qed.
Print Assumptions C31_nack_rate.

Definition exHist : list gobs := [GData 1 1500000; GNack 2 7; GTimeout 3; GData 4 2500000; GTimeout 5].
Example C31_case :
  plausible exHist /\ rtts exHist <> [] /\ settled_seqs exHist <> [] /\
  B2SF (st_min (stats_of exHist)) = B2SF (f_me 3 (-1)) /\ B2SF (st_max (stats_of exHist)) = B2SF (f_me 5 (-1)) /\
  B2SF (avgRtt (stats_of exHist)) = B2SF (f_me 2 0).
Proof.
  split; [split; [repeat constructor|vm_compute; reflexivity]|]. split; [discriminate|]. split; [discriminate|].
  vm_compute. auto.
Qed.

(** * C32 *)

(** The standard deviation is a non-negative number if the times vary enough: if the mean of
    their squares exceeds the square of their mean by more than about 3n * 2^-52 (relative).
    Missing from the claim: nearly equal times, see the refutation. *)
Theorem C32_std_dev_number_partial :
  forall h, plausible h -> rtts h <> [] ->
    let n := INR (length (rtts h)) in
    let m1 := Rmean (map (fun r => B2R (rtt_ms r)) (rtts h)) in
    let m2 := Rmean (map (fun r => (B2R (rtt_ms r))²) (rtts h)) in
    m1² * (1 + (2 * n + 3) * bpow radix2 (-52)) <= m2 * (1 - (n + 2) * bpow radix2 (-52)) ->
    is_finite (stdDevRtt (stats_of h)) = true /\ 0 <= B2R (stdDevRtt (stats_of h)).
Proof. exact sd_number. Qed.
Print Assumptions C32_std_dev_number_partial.

(** In any case it is a non-negative number or "not a number", never infinite. *)
Theorem C32_std_dev_cases :
  forall h, plausible h -> rtts h <> [] ->
    (is_finite (stdDevRtt (stats_of h)) = true /\ 0 <= B2R (stdDevRtt (stats_of h))) \/
    stdDevRtt (stats_of h) = B754_nan.
Proof. exact sd_cases'. Qed.
Print Assumptions C32_std_dev_cases.

(** If it is a number, its square is the mean of the squared deviations of the exact
    round-trip times from their mean, up to about 3n * 2^-52 times the mean of their squares. *)
Theorem C32_std_dev_accuracy :
  forall h, plausible h -> rtts h <> [] ->
    let n := INR (length (rtts h)) in
    let mean := Rmean (map exact_ms (rtts h)) in
    let sd := stdDevRtt (stats_of h) in
    is_nan sd = false ->
    Rabs ((B2R sd)² - Rmean (map (fun r => (exact_ms r - mean)²) (rtts h))) <=
      (3 * n + 20) * bpow radix2 (-52) * Rmean (map (fun r => (exact_ms r)²) (rtts h)).
Proof. exact sd_accuracy. Qed.
Print Assumptions C32_std_dev_accuracy.

(** For a single reply it is zero and the average is the time itself. *)
Theorem C32_single_reply :
  forall h r, plausible h -> rtts h = [r] ->
    B2R (avgRtt (stats_of h)) = B2R (rtt_ms r) /\
    is_finite (stdDevRtt (stats_of h)) = true /\ B2R (stdDevRtt (stats_of h)) = 0.
Proof. exact one_rtt. Qed.
Print Assumptions C32_single_reply.

(** The claim is false: three replies after exactly 0.1 ms each. *)
Theorem C32_std_dev_number_refuted :
  exists o es, valid_gopts o /\ g_ended (g_run o es) = true /\
    let h := c_hist (g_run o es) in
    plausible h /\ rtts h <> [] /\ stdDevRtt (stats_of h) = B754_nan.
Proof.
  exists exO, exEs. split; [|split; [exact (proj1 exRun_ok)|]].
  - split; [right; reflexivity|reflexivity].
  - cbn zeta. destruct exRun_ok as (_ & E & Hp). split; [exact Hp|].
    split; [rewrite E; discriminate|]. vm_compute. reflexivity.
Qed.
Print Assumptions C32_std_dev_number_refuted.

(** times of 1.5 and 2.5 ms meet the condition of the partial theorem *)
Example C32_case :
  let h := exHist in
  let n := INR (length (rtts h)) in
  let m1 := Rmean (map (fun r => B2R (rtt_ms r)) (rtts h)) in
  let m2 := Rmean (map (fun r => (B2R (rtt_ms r))²) (rtts h)) in
  m1² * (1 + (2 * n + 3) * bpow radix2 (-52)) <= m2 * (1 - (n + 2) * bpow radix2 (-52)) /\
  B2SF (stdDevRtt (stats_of h)) = B2SF (f_me 1 (-1)).
Proof.
  cbn zeta. split; [|vm_compute; reflexivity].
  assert (E1 : B2R (rtt_ms 1500000) = 1.5).
  { assert (rtt_ms 1500000 = f_me 3 (-1)) as -> by (apply B2SF_inj; vm_compute; reflexivity).
    assert (B : B2R (f_me 3 (-1)) = IZR 3 * bpow radix2 (-1)); [|rewrite B; simpl; lra].
    rewrite <- (rnd_scaled 3 (-1)) by lia. apply f_me_ok. unfold small. simpl bpow at 1. rewrite Rabs_pos_eq by lra.
    apply Rle_trans with (bpow radix2 2); [simpl; lra|apply bpow_le; lia]. }
  assert (E2 : B2R (rtt_ms 2500000) = 2.5).
  { assert (rtt_ms 2500000 = f_me 5 (-1)) as -> by (apply B2SF_inj; vm_compute; reflexivity).
    assert (B : B2R (f_me 5 (-1)) = IZR 5 * bpow radix2 (-1)); [|rewrite B; simpl; lra].
    rewrite <- (rnd_scaled 5 (-1)) by lia. apply f_me_ok. unfold small. simpl bpow at 1. rewrite Rabs_pos_eq by lra.
    apply Rle_trans with (bpow radix2 2); [simpl; lra|apply bpow_le; lia]. }
  change (rtts exHist) with [1500000; 2500000]%N. unfold Rmean, Rsum, Rsqr. cbn [map length fold_right]. rewrite E1, E2. simpl. lra.
Qed.
Example C32_case_accuracy : is_nan (stdDevRtt (stats_of exHist)) = false /\ B2SF (stdDevRtt (stats_of exHist)) = B2SF (f_me 1 (-1)).
Proof. vm_compute. auto. Qed.
