(** Properties of the rates at which the congestion windows change: C55.

    [aimd_run o ops], [cubic_run ... o ops]: the window after the changes [ops]; the
    conditions [aimd_sane] and [aimd_moderate] are those of C18. *)
From Verif Require Import Base PipelineBase AdaptiveModel Double WindowModel WindowTheorems RateSpec RateProofs RateLog PropsWindow.
From Coq Require Import Reals Lra.
From Flocq Require Import Core BinarySingleNaN.
Local Open Scope R_scope.

(** * AIMD *)

(** Until the first decrease: one step per acknowledgment below the configured threshold, one
    step per window from there on. *)
Theorem C55_aimd_start :
  forall (o : aimd_opts), aimd_sane o -> aimd_moderate o ->
  forall (ops : list wop) t r, (Z.of_nat (length ops) <= 4398046511104)%Z -> no_decrease ops ->
    let c := w_cwnd (aimd_run o ops) in
    let c' := w_cwnd (aimd_run o (ops ++ [Increase t r])) in
    is_finite c' = true /\
    (flt c (ai_initSsthresh o) = true -> exponential_growth (B2R (ai_step o)) (B2R c) (B2R c')) /\
    (flt c (ai_initSsthresh o) = false -> linear_growth (B2R (ai_step o)) (B2R c) (B2R c')).
Proof. exact aimd_before_decrease. Qed.
Print Assumptions C55_aimd_start.

(** A decrease multiplies the window by the factor, but leaves at least 2; or restores the
    initial window if so configured. *)
Theorem C55_aimd_decrease :
  forall (o : aimd_opts), aimd_sane o -> aimd_moderate o ->
  forall (ops : list wop) t, (Z.of_nat (length ops) <= 4398046511104)%Z -> 0 <= B2R (ai_mdCoef o) ->
    let c' := w_cwnd (aimd_run o (ops ++ [Decrease t])) in
    (ai_reset o = false -> is_finite c' = true /\
       B2R c' = Rmax 2 (nearest (B2R (w_cwnd (aimd_run o ops)) * B2R (ai_mdCoef o)))) /\
    (ai_reset o = true -> c' = ai_initCwnd o).
Proof. exact aimd_decrease_val. Qed.
Print Assumptions C55_aimd_decrease.

(** Afterwards the reduced window is the threshold: ... *)
Theorem C55_aimd_after_decrease :
  forall (o : aimd_opts), aimd_sane o -> aimd_moderate o ->
  forall (pre : list wop) t (post : list wop) u r,
    (Z.of_nat (length (pre ++ Decrease t :: post)) <= 4398046511104)%Z -> 0 <= B2R (ai_mdCoef o) -> no_decrease post ->
    let c := w_cwnd (aimd_run o (pre ++ Decrease t :: post)) in
    let c' := w_cwnd (aimd_run o ((pre ++ Decrease t :: post) ++ [Increase u r])) in
    let threshold := Rmax 2 (nearest (B2R (w_cwnd (aimd_run o pre)) * B2R (ai_mdCoef o))) in
    is_finite c' = true /\
    (B2R c < threshold -> exponential_growth (B2R (ai_step o)) (B2R c) (B2R c')) /\
    (threshold <= B2R c -> linear_growth (B2R (ai_step o)) (B2R c) (B2R c')).
Proof. exact aimd_after_decrease. Qed.
Print Assumptions C55_aimd_after_decrease.

(** ... so without resets the growth is linear from the first decrease on; ... *)
Theorem C55_aimd_linear :
  forall (o : aimd_opts), aimd_sane o -> aimd_moderate o ->
  forall (ops : list wop) t u r, (Z.of_nat (length ops) <= 4398046511104)%Z -> 0 <= B2R (ai_mdCoef o) ->
    ai_reset o = false -> In (Decrease t) ops ->
    let c := w_cwnd (aimd_run o ops) in
    let c' := w_cwnd (aimd_run o (ops ++ [Increase u r])) in
    is_finite c' = true /\ linear_growth (B2R (ai_step o)) (B2R c) (B2R c').
Proof. exact aimd_linear_forever. Qed.
Print Assumptions C55_aimd_linear.

(** ... and as many acknowledgments as Interests fit into the window (one round trip) raise it
    by at most one step, up to the rounding of each addition and division (relative error
    [u64f] = 2^-53).  The condition on the step excludes positive ones below 2^-900. *)
Theorem C55_aimd_round_trip :
  forall (o : aimd_opts), aimd_sane o -> aimd_moderate o ->
  forall (ops : list wop) t (post : list wop),
    (Z.of_nat (length (ops ++ post)) <= 4398046511104)%Z -> 0 <= B2R (ai_mdCoef o) ->
    ai_reset o = false -> In (Decrease t) ops -> no_decrease post ->
    B2R (ai_step o) = 0 \/ bpow radix2 (-900) <= B2R (ai_step o) ->
    let c := B2R (w_cwnd (aimd_run o ops)) in
    (Z.of_nat (length post) <= Zfloor c)%Z ->
    c <= B2R (w_cwnd (aimd_run o (ops ++ post))) <= (c + B2R (ai_step o) * (1 + u64f)) * (1 + u64f) ^ length post.
Proof. exact aimd_round_trip'. Qed.
Print Assumptions C55_aimd_round_trip.

(** The default options: 2, 3, 4, 5, 6 by slow start, 3 after a loss, then 3 + 1/3 + ...
    One round trip (three acknowledgments) ends at 4, up to rounding. *)
Example C55_case :
  aimd_sane exAimd /\ aimd_moderate exAimd /\ 0 <= B2R (ai_mdCoef exAimd) /\
  B2R (ai_step exAimd) = 1 /\
  let up := Increase 0 0 in let run ops := w_cwnd (aimd_run exAimd ops) in
  B2SF (run [up; up; up; up]) = B2SF (f_of_Z 6) /\
  B2SF (run [up; up; up; up; Decrease 0]) = B2SF (f_of_Z 3) /\
  B2SF (run [up; up; up; up; Decrease 0; up]) = B2SF (fadd (f_of_Z 3) (fdiv (f_of_Z 1) (f_of_Z 3))) /\
  B2SF (run [up; up; up; up; Decrease 0; up; up; up]) = B2SF (f_of_Z 4).
Proof.
  destruct C18_case as (H1 & H2 & H3 & _). destruct (f_of_Z_exact 1) as [_ B2]; [lia|].
  repeat (apply conj; [assumption|]). vm_compute. auto.
Qed.

(** * CUBIC, whatever std::cbrt and std::pow return *)

(** One more per acknowledgment below the configured threshold; *)
Theorem C55_cubic_start :
  forall (cbrt pow3 : f64 -> f64) (o : cubic_opts), cubic_sane o ->
  forall (ops : list wop) t r, no_decrease ops ->
    let c := cw_cwnd (cubic_run cbrt pow3 o ops) in
    let c' := cw_cwnd (cubic_run cbrt pow3 o (ops ++ [Increase t r])) in
    is_finite c = true -> B2R c <= bpow radix2 1000 -> flt c (cu_initSsthresh o) = true ->
    is_finite c' = true /\ exponential_growth 1 (B2R c) (B2R c').
Proof. exact cubic_slow. Qed.
Print Assumptions C55_cubic_start.

(** a decrease multiplies the window by beta, but leaves at least the initial window; *)
Theorem C55_cubic_decrease :
  forall (cbrt pow3 : f64 -> f64) (o : cubic_opts), cubic_sane o ->
  forall (ops : list wop) t,
    let c := cw_cwnd (cubic_run cbrt pow3 o ops) in
    let c' := cw_cwnd (cubic_run cbrt pow3 o (ops ++ [Decrease t])) in
    is_finite c = true -> is_finite (cu_beta o) = true -> 0 <= B2R (cu_beta o) <= 1 ->
    is_finite c' = true /\ B2R c' = Rmax (B2R (cu_initCwnd o)) (nearest (B2R c * B2R (cu_beta o))).
Proof. exact cubic_decrease_val. Qed.
Print Assumptions C55_cubic_decrease.

(** and from then on an acknowledgment makes up for the part 1/c of the distance to the larger
    one of the two windows of RFC 8312: the time is measured from the last decrease, and
    W_max is the window before it. *)
Theorem C55_cubic_growth :
  forall (cbrt pow3 : f64 -> f64) (o : cubic_opts), cubic_sane o ->
  forall (pre : list wop) t0 (post : list wop) t r before, no_decrease post ->
    let window ops := cw_cwnd (cubic_run cbrt pow3 o ops) in
    reduced_before window pre before ->
    let Wm := W_max (cu_beta o) (cu_fastConv o) (window pre) before in
    flt Wm (cu_initCwnd o) = false ->
    let c := window (pre ++ Decrease t0 :: post) in
    let elapsed := in_seconds (t - t0) in
    let target := fmax (W_cubic cbrt pow3 (cu_beta o) Wm elapsed) (W_est (cu_beta o) Wm elapsed (in_seconds r)) in
    window ((pre ++ Decrease t0 :: post) ++ [Increase t r]) = fadd c (fdiv (fmax f0 (fsub target c)) c).
Proof. exact cubic_avoid. Qed.
Print Assumptions C55_cubic_growth.

(** The condition on W_max holds whenever fast convergence is off. *)
Theorem C55_cubic_no_fast_convergence :
  forall (cbrt pow3 : f64 -> f64) (o : cubic_opts) (ops : list wop) before, cubic_sane o -> cu_fastConv o = false ->
    flt (W_max (cu_beta o) (cu_fastConv o) (cw_cwnd (cubic_run cbrt pow3 o ops)) before) (cu_initCwnd o) = false.
Proof. exact cubic_wmax_ok'. Qed.
Print Assumptions C55_cubic_no_fast_convergence.

(** The window is left alone when it has already reached the target. *)
Theorem C55_cubic_plateau :
  forall (cbrt pow3 : f64 -> f64) (o : cubic_opts), cubic_sane o ->
  forall (pre : list wop) t0 (post : list wop) t r before, no_decrease post ->
    let window ops := cw_cwnd (cubic_run cbrt pow3 o ops) in
    reduced_before window pre before ->
    let Wm := W_max (cu_beta o) (cu_fastConv o) (window pre) before in
    flt Wm (cu_initCwnd o) = false ->
    let c := window (pre ++ Decrease t0 :: post) in
    let c' := window ((pre ++ Decrease t0 :: post) ++ [Increase t r]) in
    let elapsed := in_seconds (t - t0) in
    is_finite c = true ->
    fle (fmax (W_cubic cbrt pow3 (cu_beta o) Wm elapsed) (W_est (cu_beta o) Wm elapsed (in_seconds r))) c = true ->
    is_finite c' = true /\ B2R c' = B2R c.
Proof. exact cubic_reached'. Qed.
Print Assumptions C55_cubic_plateau.

Example C55_case_cubic :
  cubic_sane exCubic /\
  let cbrt := fun _ : f64 => f_of_Z 2 in let pow3 x := fmul x (fmul x x) in
  let window ops := cw_cwnd (cubic_run cbrt pow3 exCubic ops) in
  let pre := [Increase 1 1; Increase 2 1; Increase 3 1; Increase 4 1] in
  reduced_before window pre f0 /\
  flt (W_max (cu_beta exCubic) (cu_fastConv exCubic) (window pre) f0) (cu_initCwnd exCubic) = false /\
  flt (window (pre ++ [Decrease 1000000000])) (W_cubic cbrt pow3 (cu_beta exCubic) (window pre) (in_seconds 3000000000)) = true.
Proof.
  split; [apply C19_case|]. cbv zeta. split.
  - left. split; [|reflexivity]. intros t H. cbn in H. intuition discriminate.
  - vm_compute. auto.
Qed.

(** * In a running pipeline *)

(** What an AIMD pipeline reports is a sequence of such changes: it raises the window once for
    every packet it delivers that has no congestion mark (or if marks are ignored), lowers it
    for a mark or a loss, and never changes it for another reason. *)
Theorem C55_aimd_pipeline :
  forall (R : Type) (o : aimd_opts) (r0 : R) rto sample backoff (C : aconfig) (es : list aevent),
    let s := a_run (aimd_policy o r0 rto sample backoff) C es in
    exists ops, window_log (c_ignoreCongMarks C) (fun ops => to_int64 (w_cwnd (aimd_run o ops)))
      (filter window_event (a_history s)) ops /\ a_cwnd s = aimd_run o ops.
Proof. exact aimd_log. Qed.
Print Assumptions C55_aimd_pipeline.

Theorem C55_cubic_pipeline :
  forall (R : Type) (cbrt pow3 : f64 -> f64) (o : cubic_opts) (r0 : R) srtt rto sample backoff (C : aconfig) (es : list aevent),
    let s := a_run (cubic_policy cbrt pow3 o r0 srtt rto sample backoff) C es in
    exists ops, window_log (c_ignoreCongMarks C) (fun ops => to_int64 (cw_cwnd (cubic_run cbrt pow3 o ops)))
      (filter window_event (a_history s)) ops /\ a_cwnd s = cubic_run cbrt pow3 o ops.
Proof. exact cubic_log. Qed.
Print Assumptions C55_cubic_pipeline.

(** A run with a packet without mark, one with a mark, and an expired Interest of a segment
    sent later. *)
Example C55_case_pipeline :
  let ok := Data [] FbiAbsent false false in let marked := Data [] FbiAbsent true false in
  let s := a_run (aimd_policy exAimd tt (fun _ => 1000%Z) (fun _ _ r => r) (fun r => r)) (AConfig 15 false false d_appnack)
    [AeData 0 ok; AeData 1 marked; AeData 2 ok; AeExpire 4] in
  filter window_event (a_history s) =
    [OGotData 0 ok; OWindow 3; ODeliver 0 ok; OGotData 1 marked; ODecrMark 1; OWindow 2; ODeliver 1 marked;
     OGotData 2 ok; OWindow 2; ODeliver 2 ok; OWindow 2; ODecrLoss 4].
Proof. vm_compute. reflexivity. Qed.
