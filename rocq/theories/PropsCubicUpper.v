(** The CUBIC window stays in a usable range: C84. *)
From Verif Require Import Base PipelineBase PipelineSpec ProgressSpec AdaptiveModel AdaptiveWitness ProgressWitness Double WindowModel WindowTheorems
  CatchunksModel CatchunksSpec CatchunksProofs DiscoverModel DiscoverSpec ExitModel
  CubicRunSpec CubicProgress CubicUpperSpec CubicUpper2 CubicPipeline TransferWitness PropsWindow.
From Coq Require Import Reals Lra.
From Flocq Require Import Core BinarySingleNaN.
Local Open Scope R_scope.

(** C84, for the window alone: whatever increases and decreases happen one after the other within
    eleven days, up to 2^42 of them, the window is a number below 2^60 and allows at least one
    Interest.  cbrt and pow only have to be right in their sign and order of magnitude. *)
Theorem C84_window :
  forall cbrt pow3 (o : cubic_opts) (ops : list wop),
    root_like cbrt -> cube_like pow3 -> cubic_sane o -> cubic_moderate o ->
    timely 0 ops -> (Z.of_nat (length ops) <= 4398046511104)%Z ->
    let w := cw_cwnd (cubic_run cbrt pow3 o ops) in
    is_finite w = true /\ B2R w < bpow radix2 60 /\ (1 <= to_int64 w < 1152921504606846976)%Z.
Proof. intros cbrt pow3 o ops H1 H2 H3 H4. exact (cubic_upper cbrt pow3 o H1 H2 H3 H4 ops). Qed.
Print Assumptions C84_window.

(** ... in the running pipeline, whatever happens: every window that is announced is between 1
    and 2^60. *)
Theorem C84_pipeline :
  forall R cbrt pow3 o (r0 : R) srtt rto sample backoff C (es : list aevent),
    root_like cbrt -> cube_like pow3 -> cubic_sane o -> cubic_moderate o -> (forall r, usable_rtt (srtt r)) ->
    let s := a_run (cubic_policy cbrt pow3 o r0 srtt rto sample backoff) C es in
    (a_now s <= 1000000000000000)%Z ->
    (Z.of_nat (length (filter (fun x => match x with OWindow _ => true | _ => false end) (a_history s))) <= 4398046511104)%Z ->
    is_finite (cw_cwnd (a_cwnd s)) = true /\ B2R (cw_cwnd (a_cwnd s)) < bpow radix2 60 /\
    forall z, In (OWindow z) (a_history s) -> (1 <= z < 1152921504606846976)%Z.
Proof. exact cubic_pipeline_upper. Qed.
Print Assumptions C84_pipeline.

(** ... and so the condition of [C65_cubic_succeeds] and [C81_cubic_succeeds] on the window is met in any
    run in which the window changes in the first eleven days only and at most 2^42 times. *)
Theorem C84_convertible :
  forall R cbrt pow3 o (r0 : R) srtt rto sample backoff C (f : nat -> aevent),
    root_like cbrt -> cube_like pow3 -> cubic_sane o -> cubic_moderate o -> (forall r, usable_rtt (srtt r)) ->
    let P := cubic_policy cbrt pow3 o r0 srtt rto sample backoff in
    let s m := a_run P C (first m f) in
    let changes m := length (filter (fun x => match x with OWindow _ => true | _ => false end) (a_history (s m))) in
    (forall m, Z.of_nat (changes m) <= 4398046511104)%Z ->
    (forall m, changes (S m) <> changes m -> a_now (s (S m)) <= 1000000000000000)%Z ->
    forall m, convertible (p_floor P (p_initW P)) (a_history (s m)).
Proof. exact cubic_convertible_always. Qed.
Print Assumptions C84_convertible.

(** C65 for CUBIC, without the assumption that the window can be converted: a window that changes in
    the first eleven days only and at most 2^42 times is enough. *)
Theorem C65_cubic_succeeds_days :
  forall R cbrt pow3 (o : cubic_opts) (r0 : R) srtt rto sample backoff dc des (maxRetries : Z) ignoreMarks disableCwa
         (f : nat -> aevent) chunks vname (b : Z),
    root_like cbrt -> cube_like pow3 -> cubic_sane o -> cubic_moderate o -> (forall r, usable_rtt (srtt r)) ->
    let s m := a_run (cubic_policy cbrt pow3 o r0 srtt rto sample backoff) (catchunks_config maxRetries ignoreMarks disableCwa) (first m f) in
    let h m := a_history (s m) in
    let changes m := length (filter (fun x => match x with OWindow _ => true | _ => false end) (h m)) in
    (forall m, Z.of_nat (changes m) <= 4398046511104)%Z ->
    (forall m, changes (S m) <> changes m -> a_now (s (S m)) <= 1000000000000000)%Z ->
    (forall m, genuine_history chunks (h m)) ->
    (forall m seg reason, ~ refused (h m) seg reason) ->
    (forall m seg, count (lost seg) (h m) <= b)%Z -> (maxRetries = -1 \/ b <= Z.max 1 maxRetries)%Z ->
    keeps_going f -> (forall i, f i <> AeCancel) -> In (DoSuccess vname) (d_run dc des) ->
    exists m0, forall m, (m0 <= m)%nat ->
      catchunks_status (d_run dc des) (a_working (s m)) (h m) = Some 0%Z /\ catchunks_stdout (h m) = concat chunks.
Proof.
  intros R cbrt pow3 o r0 srtt rto sample backoff dc des mr ig di f chunks vname b Hr Hc Hs Hm Hrtt s h changes Hn Hd.
  exact (cubic_succeeds R cbrt pow3 o r0 srtt rto sample backoff dc des mr ig di f chunks vname b Hs
    (cubic_convertible_always R cbrt pow3 o r0 srtt rto sample backoff _ f Hr Hc Hs Hm Hrtt Hn Hd)).
Qed.
Print Assumptions C65_cubic_succeeds_days.

(** C16 for CUBIC, without the assumption that the window can be converted.  Missing, as in
    [C16_adaptive_never_hangs_partial]: the producer must be honest and no segment may fail before the
    final one is known. *)
Theorem C16_cubic_never_hangs_days_partial :
  forall R cbrt pow3 (o : cubic_opts) (r0 : R) srtt rto sample backoff (C : aconfig) (n : N) (es : list aevent),
    root_like cbrt -> cube_like pow3 -> cubic_sane o -> cubic_moderate o -> (forall r, usable_rtt (srtt r)) ->
    let s := a_run (cubic_policy cbrt pow3 o r0 srtt rto sample backoff) C es in
    let h := a_history s in
    (a_now s <= 1000000000000000)%Z ->
    (Z.of_nat (length (filter (fun x => match x with OWindow _ => true | _ => false end) h)) <= 4398046511104)%Z ->
    honest n h -> on_track (c_maxRetries C) h -> existsb is_over h = false -> ~ In OThrow h ->
    outstanding h <> [].
Proof. exact cubic_never_hangs_days. Qed.
Print Assumptions C16_cubic_never_hangs_days_partial.

(** without [usable_rtt] it is false: if the smoothed round-trip time is 0, the estimate of the Reno
    window is infinite, the window becomes infinite and allows no Interest at all *)
Theorem C84_zero_rtt_refuted :
  exists cbrt pow3 o ops,
    root_like cbrt /\ cube_like pow3 /\ cubic_sane o /\ cubic_moderate o /\
    ops = [Decrease 1000000000; Increase 2000000000 0]%Z /\
    cw_cwnd (cubic_run cbrt pow3 o ops) = B754_infinity false /\
    to_int64 (cw_cwnd (cubic_run cbrt pow3 o ops)) = (-9223372036854775808)%Z.
Proof. exact zero_rtt. Qed.
Print Assumptions C84_zero_rtt_refuted.

(** the default options, a cube that is computed in binary64, and the square root in place of the
    cube root; five increases, a decrease and an increase after three more seconds *)
Definition c84_ops : list wop :=
  [Increase 1 10000000; Increase 2 10000000; Increase 3 (-1); Increase 4 10000000; Increase 5 10000000; Decrease 1000000000; Increase 4000000000 10000000]%Z.
Example C84_case :
  root_like fsqrt /\ cube_like (fun x => fmul x (fmul x x)) /\ cubic_sane exCubic /\ cubic_moderate exCubic /\
  timely 0 c84_ops /\
  map (fun n => to_int64 (cw_cwnd (cubic_run fsqrt (fun x => fmul x (fmul x x)) exCubic (firstn n c84_ops)))) [0; 5; 6; 7]%nat = [2; 7; 4; 37]%Z.
Proof.
  split; [exact root_ok|]. split; [exact cube_ok|]. split; [exact (proj1 C19_case)|]. split; [exact (proj2 default_moderate)|].
  split; [cbn; unfold usable_rtt; lia|]. vm_compute. reflexivity.
Qed.
Definition c84_policy :=
  cubic_policy fsqrt (fun x => fmul x (fmul x x)) exCubic tt (fun _ => 10000000%Z) (fun _ => 10%Z) (fun _ _ r => r) (fun r => r).
Example C84_case_pipeline :
  let s := a_run c84_policy cfg run_known in
  (a_now s <= 1000000000000000)%Z /\
  (Z.of_nat (length (filter (fun x => match x with OWindow _ => true | _ => false end) (a_history s))) <= 4398046511104)%Z /\
  existsb (fun x => match x with OWindow 3 => true | _ => false end) (a_history s) = true.
Proof. cbv zeta. split; [vm_compute; discriminate|]. split; [vm_compute; discriminate|vm_compute; reflexivity]. Qed.
(** the transfer of three segments of C65, which goes on for ever: four changes in the first five events *)
Lemma c84_few : Forall (fun m => (a_now (a_run c84_policy tcfg (first m transfer)) <=? 1000000000000000)%Z = true) [1; 2; 3; 4; 5]%nat.
Proof. repeat (constructor; [vm_compute; reflexivity|]). constructor. Qed.
Example C84_case_convertible :
  let changes m := length (filter (fun x => match x with OWindow _ => true | _ => false end) (th c84_policy m)) in
  (forall m, Z.of_nat (changes m) <= 4398046511104)%Z /\
  (forall m, changes (S m) <> changes m -> (a_now (a_run c84_policy tcfg (first (S m) transfer)) <=? 1000000000000000)%Z = true) /\
  changes 5%nat = 4%nat.
Proof.
  cbv zeta. assert (Hs : b_stopping (a_b (a_run c84_policy tcfg (first 5 transfer))) = true) by (vm_compute; reflexivity).
  split; [apply (th_all c84_policy Hs (fun h => (Z.of_nat (length (filter (fun x => match x with OWindow _ => true | _ => false end) h)) <= 4398046511104)%Z)); vm_compute; discriminate|].
  split; [|vm_compute; reflexivity]. intros m. destruct (Nat.le_gt_cases 5 m) as [H|H].
  - pose proof (th_end c84_policy Hs (m - 5)) as E1. pose proof (th_end c84_policy Hs (S m - 5)) as E2.
    replace (5 + (m - 5))%nat with m in E1 by lia. replace (5 + (S m - 5))%nat with (S m) in E2 by lia. rewrite E1, E2. intros X. contradiction X. reflexivity.
  - intros _. pose proof c84_few as F. rewrite Forall_forall in F. apply F. do 5 (destruct m as [|m]; [repeat (first [left; reflexivity|right])|]). lia.
Qed.
(** the other conditions of [C65_cubic_succeeds_days] in the same run; segment 1 is lost once *)
Example C65_case_cubic_days :
  let h := th c84_policy in
  (forall m, genuine_history chunks3 (h m)) /\
  (forall m seg reason, ~ refused (h m) seg reason) /\
  (forall m seg, count (lost seg) (h m) <= 1)%Z /\ count (lost 1) (h 5%nat) = 1%Z /\
  keeps_going transfer /\ (forall i, transfer i <> AeCancel).
Proof.
  cbv zeta. assert (Hs : b_stopping (a_b (a_run c84_policy tcfg (first 5 transfer))) = true) by (vm_compute; reflexivity).
  split; [apply (th_all c84_policy Hs); apply genuine_forall; vm_compute; repeat (constructor; [vm_compute; tauto|]); constructor|].
  split; [apply (th_all c84_policy Hs (fun h => forall seg reason, ~ refused h seg reason)); apply not_nacked; vm_compute; reflexivity|].
  split; [apply (th_all c84_policy Hs (fun h => forall seg, count (lost seg) h <= 1)%Z); apply losses_all; first [vm_compute; reflexivity|lia]|].
  split; [vm_compute; reflexivity|]. split; [exact transfer_goes_on|exact transfer_no_cancel].
Qed.
