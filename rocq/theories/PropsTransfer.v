(** Transfers end, and succeed when the network loses little enough: C51, C65.

    [f] is an endless sequence of events (what arrives, which timers fire, how time passes);
    [h m] is what has happened after the first [m] of them. *)
From Verif Require Import Base TlvModel PipelineBase PipelineSpec ProgressSpec FetcherModel PutchunksModel PutchunksSpec DiscoverModel DiscoverSpec.
From Verif Require Import AdaptiveModel AdaptiveEnd FixedModel FixedSpec FixedEndSpec CatchunksModel CatchunksSpec CatchunksProofs ExitModel.
From Verif Require Import Double WindowModel WindowTheorems TransferTheorems AdaptiveWitness ProgressWitness TransferWitness PropsWindow PropsChunks.
Local Open Scope Z_scope.

(** C51 for any behaviour of the network, not only silence: with a limit on the
    retransmissions the adaptive pipelines end.  The producer is honest, the window is at
    least 1 and bounded, time passes and the timer is checked again and again.  Missing, as
    in C16: no segment may fail before the final one is known ([on_track]);
    [C51_unknown_final_refuted] shows why. *)
Theorem C51_always_ends_partial :
  forall {W R} (P : policy W R) (C : aconfig) (n : N) (f : nat -> aevent) (B : Z),
    let h m := a_history (a_run P C (first m f)) in
    (forall m, honest n (h m)) ->
    (forall m, open_window (p_floor P (p_initW P)) (h m)) -> (forall w, p_floor P w <= B) ->
    c_maxRetries C <> -1 -> (forall m, on_track (c_maxRetries C) (h m)) -> keeps_going f ->
    exists m, existsb is_over (h m) = true \/ In OThrow (h m).
Proof. intros W R P C. exact (adaptive_always_ends C P). Qed.
Print Assumptions C51_always_ends_partial.

(** C65: the producer publishes [chunks], discovery has succeeded, no Interest is answered
    with a Nack that forbids a retry, every segment is lost at most [b] times, and [b]
    retries are allowed (or any number: -1).  Then ndncatchunks exits with status 0 and has
    written exactly the content.  Here for the adaptive pipelines with any window that stays
    between 1 and [B] and any retransmission timeouts. *)
Theorem C65_adaptive_succeeds :
  forall W R (P : policy W R) dc des (maxRetries : Z) ignoreMarks disableCwa (f : nat -> aevent) chunks vname (b B : Z),
    let s m := a_run P (catchunks_config maxRetries ignoreMarks disableCwa) (first m f) in
    let h m := a_history (s m) in
    (forall m, genuine_history chunks (h m)) ->
    (forall m, open_window (p_floor P (p_initW P)) (h m)) -> (forall w, p_floor P w <= B) ->
    (forall m seg reason, ~ refused (h m) seg reason) ->
    (forall m seg, count (lost seg) (h m) <= b) -> (maxRetries = -1 \/ b <= Z.max 1 maxRetries) ->
    keeps_going f -> (forall i, f i <> AeCancel) -> In (DoSuccess vname) (d_run dc des) ->
    exists m0, forall m, (m0 <= m)%nat ->
      catchunks_status (d_run dc des) (a_working (s m)) (h m) = Some 0 /\ catchunks_stdout (h m) = concat chunks.
Proof. exact @adaptive_succeeds. Qed.
Print Assumptions C65_adaptive_succeeds.

(** ... for AIMD with moderate parameters, without any condition on the window (as long as
    it changes at most 2^42 times) *)
Theorem C65_aimd_succeeds :
  forall R (o : aimd_opts) (r0 : R) rto sample backoff dc des (maxRetries : Z) ignoreMarks disableCwa
         (f : nat -> aevent) chunks vname (b : Z),
    aimd_sane o -> aimd_moderate o ->
    let s m := a_run (aimd_policy o r0 rto sample backoff) (catchunks_config maxRetries ignoreMarks disableCwa) (first m f) in
    let h m := a_history (s m) in
    (forall m, Z.of_nat (length (filter (fun x => match x with OWindow _ => true | _ => false end) (h m))) <= 4398046511104) ->
    (forall m, genuine_history chunks (h m)) ->
    (forall m seg reason, ~ refused (h m) seg reason) ->
    (forall m seg, count (lost seg) (h m) <= b) -> (maxRetries = -1 \/ b <= Z.max 1 maxRetries) ->
    keeps_going f -> (forall i, f i <> AeCancel) -> In (DoSuccess vname) (d_run dc des) ->
    exists m0, forall m, (m0 <= m)%nat ->
      catchunks_status (d_run dc des) (a_working (s m)) (h m) = Some 0 /\ catchunks_stdout (h m) = concat chunks.
Proof. exact aimd_succeeds. Qed.
Print Assumptions C65_aimd_succeeds.

(** ... for the fixed pipeline of any size, if every awaited Interest is eventually answered
    or expires.  Nacks and expiries are limited separately, as in the code. *)
Theorem C65_fixed_succeeds :
  forall dc des (size : nat) (maxRetries : Z) (f : nat -> xevent), (0 < size)%nat ->
    forall chunks vname (b : Z),
    let s m := x_run (XConfig size maxRetries d_appnack) (xfirst m f) in
    let h m := x_history (s m) in
    (forall m, genuine_history chunks (h m)) ->
    (forall m seg reason, ~ refused (h m) seg reason) ->
    (forall m seg, count (nack_for seg) (h m) <= b) -> (forall m seg, count (expiry_for seg) (h m) <= b) ->
    (maxRetries = -1 \/ b <= maxRetries) ->
    (forall m, awaited (h m) <> [] -> exists j, (m <= j)%nat /\ h (S j) <> h j) ->
    (forall i, f i <> XeCancel) -> In (DoSuccess vname) (d_run dc des) ->
    exists m0, forall m, (m0 <= m)%nat ->
      catchunks_status (d_run dc des) (x_working (s m)) (h m) = Some 0 /\ catchunks_stdout (h m) = concat chunks.
Proof. exact fixed_succeeds. Qed.
Print Assumptions C65_fixed_succeeds.

(** End to end: ndnputchunks serves [input], the network forges nothing, refuses nothing and
    loses every segment at most [b] times.  Then ndncatchunks exits with status 0 and its
    standard output is [input]. *)
Theorem C65_adaptive_transfer :
  forall digest cv now0 (Hnow : (now0 < 18446744073709551616)%N)
         o (Hsize : (0 < po_size o)%nat) prefix input (Hinput : (N.of_nat (length input) + 1 < 18446744073709551616)%N),
    let P := make_producer cv now0 o prefix input in
    forall W R (pol : policy W R) dc des (maxRetries : Z) ignoreMarks disableCwa (f : nat -> aevent) vname ccv mbf (b B : Z),
    let s m := a_run pol (catchunks_config maxRetries ignoreMarks disableCwa) (first m f) in
    let h m := a_history (s m) in
    encodable (pr_vprefix P) -> client_of digest cv P dc (d_run dc des) -> In (DoSuccess vname) (d_run dc des) ->
    (forall m, honest_network digest cv P ccv vname mbf (h m)) ->
    (forall m, open_window (p_floor pol (p_initW pol)) (h m)) -> (forall w, p_floor pol w <= B) ->
    (forall m seg reason, ~ refused (h m) seg reason) ->
    (forall m seg, count (lost seg) (h m) <= b) -> (maxRetries = -1 \/ b <= Z.max 1 maxRetries) ->
    keeps_going f -> (forall i, f i <> AeCancel) ->
    exists m0, forall m, (m0 <= m)%nat ->
      catchunks_status (d_run dc des) (a_working (s m)) (h m) = Some 0 /\ catchunks_stdout (h m) = input.
Proof. exact e2e_adaptive_succeeds. Qed.
Print Assumptions C65_adaptive_transfer.

Theorem C65_fixed_transfer :
  forall digest cv now0 (Hnow : (now0 < 18446744073709551616)%N)
         o (Hsize : (0 < po_size o)%nat) prefix input (Hinput : (N.of_nat (length input) + 1 < 18446744073709551616)%N),
    let P := make_producer cv now0 o prefix input in
    forall dc des (size : nat) (maxRetries : Z) (f : nat -> xevent) vname ccv mbf (b : Z), (0 < size)%nat ->
    let s m := x_run (XConfig size maxRetries d_appnack) (xfirst m f) in
    let h m := x_history (s m) in
    encodable (pr_vprefix P) -> client_of digest cv P dc (d_run dc des) -> In (DoSuccess vname) (d_run dc des) ->
    (forall m, honest_network digest cv P ccv vname mbf (h m)) ->
    (forall m seg reason, ~ refused (h m) seg reason) ->
    (forall m seg, count (nack_for seg) (h m) <= b) -> (forall m seg, count (expiry_for seg) (h m) <= b) ->
    (maxRetries = -1 \/ b <= maxRetries) ->
    (forall m, awaited (h m) <> [] -> exists j, (m <= j)%nat /\ h (S j) <> h j) ->
    (forall i, f i <> XeCancel) ->
    exists m0, forall m, (m0 <= m)%nat ->
      catchunks_status (d_run dc des) (x_working (s m)) (h m) = Some 0 /\ catchunks_stdout (h m) = input.
Proof. exact e2e_fixed_succeeds. Qed.
Print Assumptions C65_fixed_transfer.

(** Three segments, segment 1 lost once, 15 retries, a window between 1 and 100. *)
Ltac gen := apply genuine_forall; vm_compute; repeat (constructor; [vm_compute; tauto|]); constructor.
Example C65_case :
  let h := th capped in
  (forall m, genuine_history chunks3 (h m)) /\
  (forall m, open_window (p_floor capped (p_initW capped)) (h m)) /\ (forall w, p_floor capped w <= 100) /\
  (forall m seg reason, ~ refused (h m) seg reason) /\
  (forall m seg, count (lost seg) (h m) <= 1) /\ count (lost 1) (h 5%nat) = 1 /\
  (forall m, on_track 15 (h m)) /\
  keeps_going transfer /\ (forall i, transfer i <> AeCancel) /\
  In (DoSuccess []) (d_run (DConfig true 15 []) []).
Proof.
  cbv zeta. assert (Hs : b_stopping (a_b (a_run capped tcfg (first 5 transfer))) = true) by (vm_compute; reflexivity).
  split; [apply (th_all capped Hs); gen|]. split; [intros m; apply capped_open|]. split; [intros w; cbn; lia|].
  split; [apply (th_all capped Hs (fun h => forall seg reason, ~ refused h seg reason)); apply not_nacked; vm_compute; reflexivity|].
  split; [apply (th_all capped Hs (fun h => forall seg, count (lost seg) h <= 1)); apply losses_all; first [vm_compute; reflexivity|lia]|].
  split; [vm_compute; reflexivity|].
  split.
  { apply (th_all capped Hs (on_track 15)); right; (split; [apply not_nacked; vm_compute; reflexivity|]); intros seg [_ H];
      match type of H with count _ ?l = _ => assert (L : count (is_resend seg) l <= 1) by (apply resends_few; vm_compute; discriminate) end; lia. }
  split; [exact transfer_goes_on|]. split; [exact transfer_no_cancel|]. vm_compute. tauto.
Qed.
(** the same for AIMD with the default options *)
Example C65_case_aimd :
  let h := th (aimd_policy exAimd tt (fun _ => 10) (fun _ _ r => r) (fun r => r)) in
  (forall m, Z.of_nat (length (filter (fun x => match x with OWindow _ => true | _ => false end) (h m))) <= 4398046511104) /\
  (forall m, genuine_history chunks3 (h m)) /\
  (forall m seg reason, ~ refused (h m) seg reason) /\
  (forall m seg, count (lost seg) (h m) <= 1) /\ count (lost 1) (h 5%nat) = 1.
Proof.
  cbv zeta. set (P := aimd_policy exAimd tt (fun _ => 10) (fun _ _ r => r) (fun r => r)).
  assert (Hs : b_stopping (a_b (a_run P tcfg (first 5 transfer))) = true) by (vm_compute; reflexivity).
  split; [apply (th_all P Hs (fun h => Z.of_nat (length (filter (fun x => match x with OWindow _ => true | _ => false end) h)) <= 4398046511104)); vm_compute; discriminate|].
  split; [apply (th_all P Hs); gen|].
  split; [apply (th_all P Hs (fun h => forall seg reason, ~ refused h seg reason)); apply not_nacked; vm_compute; reflexivity|].
  split; [apply (th_all P Hs (fun h => forall seg, count (lost seg) h <= 1)); apply losses_all; first [vm_compute; reflexivity|lia]|].
  vm_compute. reflexivity.
Qed.
(** the fixed pipeline of size 2 with one retry; segment 1 expires once *)
Example C65_case_fixed :
  (forall m, genuine_history chunks3 (xh m)) /\
  (forall m seg reason, ~ refused (xh m) seg reason) /\
  (forall m seg, count (nack_for seg) (xh m) <= 1) /\ (forall m seg, count (expiry_for seg) (xh m) <= 1) /\
  count (expiry_for 1) (xh 4) = 1 /\
  (forall m, awaited (xh m) <> [] -> exists j, (m <= j)%nat /\ xh (S j) <> xh j) /\
  (forall i, transferX i <> XeCancel).
Proof.
  assert (L : forall m seg, count (nack_for seg) (xh m) <= 1 /\ count (expiry_for seg) (xh m) <= 1).
  { apply (xh_all (fun h => forall seg, count (nack_for seg) h <= 1 /\ count (expiry_for seg) h <= 1));
      apply lossesX_all; first [vm_compute; reflexivity|lia]. }
  split; [apply xh_all; gen|].
  split; [apply (xh_all (fun h => forall seg reason, ~ refused h seg reason)); apply not_nacked; vm_compute; reflexivity|].
  split; [intros m seg; apply L|]. split; [intros m seg; apply L|]. split; [vm_compute; reflexivity|].
  split; [exact xh_fair|exact transferX_no_cancel].
Qed.
