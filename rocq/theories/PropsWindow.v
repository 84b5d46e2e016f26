(** Properties of the congestion windows in double arithmetic: C18, C19.

    [fle a b] is the comparison a <= b of IEEE 754 numbers, false if one is not a number. *)
From Verif Require Import Base PipelineBase AdaptiveModel Double WindowModel WindowTheorems.
From Coq Require Import Reals Lra.
From Flocq Require Import Core BinarySingleNaN.
Local Open Scope R_scope.

(** * C18 AIMD *)

(** The window is never NaN and never below the smaller of the initial window and 2, for
    every multiplicative factor and slow start threshold (also negative, infinite or NaN). *)
Theorem C18_aimd_lower_bound :
  forall (o : aimd_opts) (ops : list wop), aimd_sane o ->
    is_nan (w_cwnd (aimd_run o ops)) = false /\
    (fle (ai_initCwnd o) (w_cwnd (aimd_run o ops)) = true \/ fle (f_of_Z 2) (w_cwnd (aimd_run o ops)) = true).
Proof. exact aimd_lower'. Qed.
Print Assumptions C18_aimd_lower_bound.

(** An increase never lowers it. *)
Theorem C18_aimd_increase :
  forall (o : aimd_opts) (ops : list wop), aimd_sane o ->
    fle (w_cwnd (aimd_run o ops)) (w_cwnd (aimd_run o (ops ++ [Increase 0 0]))) = true.
Proof. exact aimd_increase_up'. Qed.
Print Assumptions C18_aimd_increase.

(** A decrease never raises it above the larger of 2 and its previous value. *)
Theorem C18_aimd_decrease :
  forall (o : aimd_opts) (ops : list wop) now, aimd_sane o -> aimd_moderate o -> 0 <= B2R (ai_mdCoef o) -> ai_reset o = false ->
    (Z.of_nat (length ops) <= 4398046511104)%Z ->
    is_finite (w_cwnd (aimd_run o (ops ++ [Decrease now]))) = true /\
    B2R (w_cwnd (aimd_run o (ops ++ [Decrease now]))) <= Rmax 2 (B2R (w_cwnd (aimd_run o ops))).
Proof. exact aimd_decrease_down'. Qed.
Print Assumptions C18_aimd_decrease.

(** With moderate parameters and up to 2^42 changes the conversion to an integer is defined
    and at least one Interest is allowed; ... *)
Theorem C18_aimd_allows_one :
  forall (o : aimd_opts) (ops : list wop), aimd_sane o -> aimd_moderate o -> (Z.of_nat (length ops) <= 4398046511104)%Z ->
    (1 <= to_int64 (w_cwnd (aimd_run o ops)) < 9223372036854775808)%Z.
Proof. exact aimd_allows'. Qed.
Print Assumptions C18_aimd_allows_one.

(** ... so in every run of the AIMD pipeline with any RTT estimator. *)
Theorem C18_aimd_pipeline :
  forall (R : Type) (o : aimd_opts) (r0 : R) rto sample backoff (C : aconfig) (es : list aevent),
    aimd_sane o -> aimd_moderate o ->
    let h := a_history (a_run (aimd_policy o r0 rto sample backoff) C es) in
    (Z.of_nat (length (filter (fun x => match x with OWindow _ => true | _ => false end) h)) <= 4398046511104)%Z ->
    forall z, In (OWindow z) h -> (1 <= z < 9223372036854775808)%Z.
Proof. exact aimd_pipeline. Qed.
Print Assumptions C18_aimd_pipeline.

(** the default options meet all conditions; one decrease from 5 yields 2.5 *)
Definition exAimd : aimd_opts := AimdOpts (f_of_Z 2) DBL_MAX (f_of_Z 1) (f_me 1 (-1)) false.
Example C18_case : aimd_sane exAimd /\ aimd_moderate exAimd /\ 0 <= B2R (ai_mdCoef exAimd) /\
  B2SF (w_cwnd (aimd_run exAimd [Increase 0 0; Increase 0 0; Increase 0 0; Decrease 0])) = B2SF (f_me 5 (-1)).
Proof.
  destruct (f_of_Z_exact 2) as [A1 A2]; [lia|]. destruct (f_of_Z_exact 1) as [B1 B2]; [lia|].
  destruct (f_me_ok 1 (-1)) as [M1 M2]. { unfold small. rewrite Rmult_1_l, Rabs_pos_eq by apply bpow_ge_0. apply bpow_le. lia. }
  rewrite rnd_scaled, Rmult_1_l in M2 by lia.
  unfold aimd_sane, aimd_moderate, exAimd. cbn [ai_initCwnd ai_step ai_mdCoef]. rewrite A2, B2, M2.
  assert (bpow radix2 1 <= bpow radix2 40) by (apply bpow_le; lia). assert (bpow radix2 0 <= bpow radix2 20) by (apply bpow_le; lia).
  change (bpow radix2 1) with 2 in *. change (bpow radix2 0) with 1 in *. change (bpow radix2 (-1)) with (/ 2).
  split; [repeat split; auto; lra|]. split; [repeat split; auto; lra|]. split; [lra|]. vm_compute. reflexivity.
Qed.

(** Without the first condition the pipeline stalls: with an initial window below 1 starting
    it sends nothing, so there is nothing that could be answered. *)
Theorem C18_small_initial_window_refuted :
  exists o, B2SF (ai_initCwnd o) = B2SF (f_me 1 (-1)) /\ ai_step o = f_of_Z 1 /\
    forall (R : Type) (r0 : R) rto sample backoff (C : aconfig),
      a_history (a_run (aimd_policy o r0 rto sample backoff) C []) = [].
Proof. exists (AimdOpts (f_me 1 (-1)) DBL_MAX (f_of_Z 1) (f_me 1 (-1)) false). split; [reflexivity|]. split; [reflexivity|]. intros. vm_compute. reflexivity. Qed.
Print Assumptions C18_small_initial_window_refuted.

(** Nor does it do anything useful with a huge one: 2^63 does not fit into the integer the
    window is converted to. *)
Theorem C18_huge_initial_window_refuted :
  exists o, aimd_sane o /\ B2R (ai_initCwnd o) = bpow radix2 63 /\ (to_int64 (w_cwnd (aimd_run o [])) < 0)%Z.
Proof.
  exists (AimdOpts (f_me 1 63) DBL_MAX (f_of_Z 1) (f_me 1 (-1)) false).
  destruct (f_me_ok 1 63) as [M1 M2]. { unfold small. rewrite Rmult_1_l, Rabs_pos_eq by apply bpow_ge_0. apply bpow_le. lia. }
  rewrite rnd_scaled, Rmult_1_l in M2 by lia. destruct (f_of_Z_exact 1) as [B1 B2]; [lia|].
  assert (bpow radix2 0 <= bpow radix2 63) by (apply bpow_le; lia). change (bpow radix2 0) with 1 in *.
  split; [|split].
  - unfold aimd_sane. cbn [ai_initCwnd ai_step]. rewrite M2, B2. repeat split; auto; lra.
  - exact M2.
  - vm_compute. reflexivity.
Qed.
Print Assumptions C18_huge_initial_window_refuted.

(** * C19 CUBIC *)

(** The window is never NaN and never below the initial window, at arbitrary times and RTTs,
    for every factor beta, and whatever std::cbrt and std::pow return. *)
Theorem C19_cubic_lower_bound :
  forall (cbrt pow3 : f64 -> f64) (o : cubic_opts) (ops : list wop), cubic_sane o ->
    is_nan (cw_cwnd (cubic_run cbrt pow3 o ops)) = false /\
    fle (cu_initCwnd o) (cw_cwnd (cubic_run cbrt pow3 o ops)) = true.
Proof. exact cubic_lower'. Qed.
Print Assumptions C19_cubic_lower_bound.

(** An increase never lowers it. *)
Theorem C19_cubic_increase :
  forall (cbrt pow3 : f64 -> f64) (o : cubic_opts) (ops : list wop) now srtt, cubic_sane o ->
    fle (cw_cwnd (cubic_run cbrt pow3 o ops)) (cw_cwnd (cubic_run cbrt pow3 o (ops ++ [Increase now srtt]))) = true.
Proof. exact cubic_increase_up'. Qed.
Print Assumptions C19_cubic_increase.

(** At least one Interest is allowed as long as the window fits into 64 bits. *)
Theorem C19_cubic_allows_one :
  forall (cbrt pow3 : f64 -> f64) (o : cubic_opts) (ops : list wop), cubic_sane o ->
    flt (cw_cwnd (cubic_run cbrt pow3 o ops)) (f_me 1 63) = true ->
    (1 <= to_int64 (cw_cwnd (cubic_run cbrt pow3 o ops)) < 9223372036854775808)%Z.
Proof. exact cubic_allows'. Qed.
Print Assumptions C19_cubic_allows_one.

(** In every run of the CUBIC pipeline with any RTT estimator. *)
Theorem C19_cubic_pipeline :
  forall (R : Type) (cbrt pow3 : f64 -> f64) (o : cubic_opts) (r0 : R) srtt rto sample backoff (C : aconfig) (es : list aevent),
    cubic_sane o ->
    let s := a_run (cubic_policy cbrt pow3 o r0 srtt rto sample backoff) C es in
    is_nan (cw_cwnd (a_cwnd s)) = false /\ fle (cu_initCwnd o) (cw_cwnd (a_cwnd s)) = true.
Proof. exact cubic_pipeline. Qed.
Print Assumptions C19_cubic_pipeline.

(** a decrease, later an increase beyond the slow start threshold (with sample values for
    the library functions) *)
Definition exCubic : cubic_opts := CubicOpts (f_of_Z 2) DBL_MAX (fdiv (f_of_Z 7) (f_of_Z 10)) false.
Example C19_case : cubic_sane exCubic /\
  let run ops := cw_cwnd (cubic_run (fun _ => f_of_Z 2) (fun x => fmul x (fmul x x)) exCubic ops) in
  let up := [Increase 1 1; Increase 2 1; Increase 3 1; Increase 4 1] in
  B2SF (run up) = B2SF (f_of_Z 6) /\
  flt (run (up ++ [Decrease 1000000000])) (run up) = true /\
  flt (run (up ++ [Decrease 1000000000])) (run (up ++ [Decrease 1000000000; Increase 4000000000 1000000])) = true.
Proof.
  destruct (f_of_Z_exact 2) as [A1 A2]; [lia|].
  split; [unfold cubic_sane, exCubic; cbn [cu_initCwnd]; rewrite A2; split; [exact A1|lra]|]. vm_compute. auto.
Qed.
