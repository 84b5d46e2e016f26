(** Progress and success with the CUBIC pipeline, which is the default: C16, C65.

    The window must stay below 2^63 so that it can be converted to a 64-bit integer
    ([convertible]).  Nothing else is assumed of it, and nothing of cbrt and pow. *)
From Verif Require Import Base TlvModel PipelineBase PipelineSpec ProgressSpec FetcherModel PutchunksModel PutchunksSpec DiscoverModel DiscoverSpec.
From Verif Require Import AdaptiveModel AdaptiveEnd CatchunksModel CatchunksSpec CatchunksProofs ExitModel.
From Verif Require Import Double WindowModel WindowTheorems CubicRunSpec CubicProgress AdaptiveWitness ProgressWitness TransferWitness PropsWindow PropsChunks.
Local Open Scope Z_scope.

(** C16 for CUBIC: while the transfer is neither complete nor failed nor cancelled, an Interest
    is outstanding.  Missing, as in [C16_adaptive_never_hangs_partial]: the producer must be
    honest and no segment may fail before the final one is known. *)
Theorem C16_cubic_never_hangs_partial :
  forall R cbrt pow3 (o : cubic_opts) (r0 : R) srtt rto sample backoff (C : aconfig) (n : N) (es : list aevent),
    cubic_sane o ->
    let P := cubic_policy cbrt pow3 o r0 srtt rto sample backoff in
    let h := a_history (a_run P C es) in
    convertible (p_floor P (p_initW P)) h ->
    honest n h -> on_track (c_maxRetries C) h -> existsb is_over h = false -> ~ In OThrow h ->
    outstanding h <> [].
Proof. exact cubic_never_hangs. Qed.
Print Assumptions C16_cubic_never_hangs_partial.

(** C65 for CUBIC: the producer publishes [chunks], discovery has succeeded, no Interest is
    answered with a Nack that forbids a retry, every segment is lost at most [b] times, and [b]
    retries are allowed.  Then ndncatchunks exits with status 0 and has written the content. *)
Theorem C65_cubic_succeeds :
  forall R cbrt pow3 (o : cubic_opts) (r0 : R) srtt rto sample backoff dc des (maxRetries : Z) ignoreMarks disableCwa
         (f : nat -> aevent) chunks vname (b : Z),
    cubic_sane o ->
    let P := cubic_policy cbrt pow3 o r0 srtt rto sample backoff in
    let s m := a_run P (catchunks_config maxRetries ignoreMarks disableCwa) (first m f) in
    let h m := a_history (s m) in
    (forall m, convertible (p_floor P (p_initW P)) (h m)) ->
    (forall m, genuine_history chunks (h m)) ->
    (forall m seg reason, ~ refused (h m) seg reason) ->
    (forall m seg, count (lost seg) (h m) <= b) -> (maxRetries = -1 \/ b <= Z.max 1 maxRetries) ->
    keeps_going f -> (forall i, f i <> AeCancel) -> In (DoSuccess vname) (d_run dc des) ->
    exists m0, forall m, (m0 <= m)%nat ->
      catchunks_status (d_run dc des) (a_working (s m)) (h m) = Some 0 /\ catchunks_stdout (h m) = concat chunks.
Proof. exact cubic_succeeds. Qed.
Print Assumptions C65_cubic_succeeds.

(** three segments, the second is lost once; the round-trip time is 10 ms *)
Definition exCubicPolicy :=
  cubic_policy (fun x => x) (fun x => fmul x (fmul x x)) exCubic tt (fun _ => 10000000) (fun _ => 10) (fun _ _ r => r) (fun r => r).
Ltac gen := apply genuine_forall; vm_compute; repeat (constructor; [vm_compute; tauto|]); constructor.
Example C65_case_cubic :
  let h := th exCubicPolicy in
  cubic_sane exCubic /\
  (forall m, convertible (p_floor exCubicPolicy (p_initW exCubicPolicy)) (h m)) /\
  (forall m, genuine_history chunks3 (h m)) /\
  (forall m seg reason, ~ refused (h m) seg reason) /\
  (forall m seg, count (lost seg) (h m) <= 1) /\ count (lost 1) (h 5%nat) = 1 /\
  keeps_going transfer /\ (forall i, transfer i <> AeCancel).
Proof.
  cbv zeta. set (P := exCubicPolicy).
  assert (Hs : b_stopping (a_b (a_run P tcfg (first 5 transfer))) = true) by (vm_compute; reflexivity).
  split; [exact (proj1 C19_case)|].
  split; [apply (th_all P Hs (fun h => convertible _ h)); apply convertible_check; vm_compute; reflexivity|].
  split; [apply (th_all P Hs); gen|].
  split; [apply (th_all P Hs (fun h => forall seg reason, ~ refused h seg reason)); apply not_nacked; vm_compute; reflexivity|].
  split; [apply (th_all P Hs (fun h => forall seg, count (lost seg) h <= 1)); apply losses_all; first [vm_compute; reflexivity|lia]|].
  split; [vm_compute; reflexivity|]. split; [exact transfer_goes_on|exact transfer_no_cancel].
Qed.
(** half way through *)
Example C16_case_cubic :
  let h := a_history (a_run exCubicPolicy cfg run_known) in
  convertible (p_floor exCubicPolicy (p_initW exCubicPolicy)) h /\ honest 2 h /\ on_track 15 h /\
  existsb is_over h = false /\ ~ In OThrow h /\ outstanding h = [2; 1]%N.
Proof.
  cbv zeta. split; [apply convertible_check; vm_compute; reflexivity|].
  split; [apply honest_check; vm_compute; reflexivity|].
  split; [left; vm_compute; discriminate|]. split; [vm_compute; reflexivity|].
  split; [apply nothrow_check; vm_compute; reflexivity|vm_compute; reflexivity].
Qed.
