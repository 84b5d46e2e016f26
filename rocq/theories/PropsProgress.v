(** Progress of the pipelines: C16, C51 (aimd, cubic), C52 (fixed). *)
From Verif Require Import Base PipelineBase PipelineSpec ProgressSpec AdaptiveModel AdaptiveWitness AdaptiveLive ProgressWitness.
From Verif Require Import Double WindowModel WindowTheorems ProgressWindow.
From Verif Require Import FixedModel FixedSpec FixedEndSpec FixedEnd FixedEndWitness.

(** C16, as far as it holds: against a producer that publishes segments 0..n and announces
    no other final segment, with a window of at least one Interest, and unless a segment
    failed before the final segment was known: while neither completion nor failure nor
    cancellation happened, an Interest is outstanding.  Missing: the last condition and the
    producer's honesty; [C16_adaptive_never_hangs_refuted] shows why the former is needed. *)
Theorem C16_adaptive_never_hangs_partial :
  forall {W R} (P : policy W R) (C : aconfig) (n : N) (es : list aevent),
    let h := a_history (a_run P C es) in
    honest n h -> open_window (p_floor P (p_initW P)) h -> on_track (c_maxRetries C) h ->
    existsb is_over h = false -> ~ In OThrow h ->
    outstanding h <> [].
Proof. intros W R P C. exact (never_hangs C P). Qed.
Print Assumptions C16_adaptive_never_hangs_partial.

(** ... and something does follow: if nothing arrives for long enough, the next check of
    the timer declares every outstanding Interest lost. *)
Theorem C16_adaptive_timeout_follows_partial :
  forall {W R} (P : policy W R) (C : aconfig) (n : N) (es : list aevent),
    let h := a_history (a_run P C es) in
    honest n h -> open_window (p_floor P (p_initW P)) h -> on_track (c_maxRetries C) h ->
    existsb is_over h = false -> ~ In OThrow h ->
    exists T, forall dt order, (T <= dt)%N -> exists h',
      a_history (a_run P C (es ++ [AeTick dt; AeRto order])) = h ++ h' /\
      forall k, In k (outstanding h) -> In (ORto k) h'.
Proof. intros W R P C. exact (timeout_follows C P). Qed.
Print Assumptions C16_adaptive_timeout_follows_partial.

Example C16_case :
  let h := a_history (a_run (halving 2) cfg run_known) in
  honest 2 h /\ open_window (p_floor (halving 2) (p_initW (halving 2))) h /\ on_track 15 h /\
  existsb is_over h = false /\ ~ In OThrow h /\ outstanding h = [2; 1]%N.
Proof.
  cbv zeta. split; [|split; [apply halving_open; lia|]].
  - apply honest_check. vm_compute. reflexivity.
  - split; [left; vm_compute; discriminate|]. split; [vm_compute; reflexivity|].
    split; [apply nothrow_check; vm_compute; reflexivity|vm_compute; reflexivity].
Qed.

(** For the AIMD pipeline with moderate parameters the window is always open (up to 2^42
    changes), so that the condition on it disappears. *)
Theorem C16_aimd_never_hangs_partial :
  forall (R : Type) (o : aimd_opts) (r0 : R) rto sample backoff (C : aconfig) (n : N) (es : list aevent),
    aimd_sane o -> aimd_moderate o ->
    let h := a_history (a_run (aimd_policy o r0 rto sample backoff) C es) in
    Z.of_nat (length (filter (fun x => match x with OWindow _ => true | _ => false end) h)) <= 4398046511104 ->
    honest n h -> on_track (c_maxRetries C) h -> existsb is_over h = false -> ~ In OThrow h ->
    outstanding h <> [].
Proof. exact aimd_never_hangs. Qed.
Print Assumptions C16_aimd_never_hangs_partial.

(** C51, as far as it holds: the final segment is known, the number of retransmissions is limited, and then
    the network falls silent forever.  Whatever the delays, the pipeline reports failure. *)
Theorem C51_silence_ends_partial :
  forall {W R} (P : policy W R) (C : aconfig) (n : N) (es : list aevent) (f : nat -> aevent),
    let h m := a_history (a_run P C (es ++ first m f)) in
    honest n (h 0%nat) -> known_last (h 0%nat) <> None ->
    existsb is_over (h 0%nat) = false -> ~ In OThrow (h 0%nat) ->
    (forall m, open_window (p_floor P (p_initW P)) (h m)) ->
    c_maxRetries C <> -1 -> (forall i, silent (f i)) -> keeps_going f ->
    exists m reason, In (OFail reason) (h m).
Proof. intros W R P C. exact (silence_ends C P). Qed.
Print Assumptions C51_silence_ends_partial.

Example C51_case :
  let h m := a_history (a_run (halving 2) cfg (run_known ++ first m ticking)) in
  honest 2 (h 0%nat) /\ known_last (h 0%nat) = Some 2%N /\ existsb is_over (h 0%nat) = false /\
  (forall m, open_window (p_floor (halving 2) (p_initW (halving 2))) (h m)) /\
  (forall i, silent (ticking i)) /\ keeps_going ticking /\ In (OFail (RMaxRetries 1)) (h 70%nat).
Proof.
  cbv zeta. split; [|split; [|split; [|split; [|split; [|split]]]]].
  - apply honest_check. vm_compute. reflexivity.
  - vm_compute. reflexivity.
  - vm_compute. reflexivity.
  - intros m. apply halving_open. lia.
  - exact ticking_silent.
  - exact ticking_goes_on.
  - vm_compute. tauto.
Qed.

(** If the final segment is not known, this fails: with the default 15 retries and a window
    of 2, a network that is silent from the beginning leaves the pipeline waiting forever. *)
Theorem C51_unknown_final_refuted :
  exists (P : policy Z unit) (C : aconfig) (es : list aevent),
    p_floor P (p_initW P) = 2 /\ c_maxRetries C = 15 /\ Forall silent es /\
    forall es', ~ In AeCancel es' ->
      let h := a_history (a_run P C (es ++ es')) in
      existsb is_over h = false /\ outstanding h = [].
Proof.
  exists (halving 2), cfg, run_silent. split; [reflexivity|]. split; [reflexivity|].
  split; [apply Forall_forall; intros e He; apply in_map_iff in He; destruct He as (i & <- & _); apply ticking_silent|].
  intros es' Hn. cbv zeta.
  assert (E : a_tr (a_run (halving 2) cfg (run_silent ++ es')) = a_tr (a_run (halving 2) cfg run_silent)).
  { unfold a_run. rewrite fold_left_app. apply hang_forever; [vm_compute; reflexivity|vm_compute; reflexivity|exact Hn]. }
  unfold a_history. rewrite E. vm_compute. auto.
Qed.
Print Assumptions C51_unknown_final_refuted.

(** C52: the fixed pipeline with a limited number of retries sends at most 2r+1 Interests per
    segment that it tries, and tries at most as many segments as it has slots and has received
    Data -- with any producer. *)
Theorem C52_fixed_interests_bounded :
  forall (C : xconfig) (es : list xevent), 0 <= xc_maxRetries C ->
    let h := x_history (x_run C es) in
    count is_interest h <=
      (2 * xc_maxRetries C + 1) * (Z.of_nat (xc_size C) + Z.of_nat (length (deliveries h))).
Proof. intros C es Hr. exact (interests_bounded C Hr es). Qed.
Print Assumptions C52_fixed_interests_bounded.

(** ... and it always ends: let the events [f 0], [f 1], ... be any such that Data comes only
    for segments up to some [n], and that, whenever something is awaited, one of the awaited
    things happens at some time.  Then at some time the pipeline reports completion or
    failure, or is cancelled, or an exception ends the program. *)
Theorem C52_fixed_always_ends :
  forall (C : xconfig) (n : N) (f : nat -> xevent),
    (0 < xc_size C)%nat -> 0 <= xc_maxRetries C ->
    let h m := x_history (x_run C (xfirst m f)) in
    (forall m k d, In (OGotData k d) (h m) -> (k <= n)%N) ->
    (forall m, awaited (h m) <> [] -> exists j, (m <= j)%nat /\ h (S j) <> h j) ->
    exists m, existsb is_over (h m) = true \/ In OThrow (h m).
Proof. intros C n f Hs Hr. exact (always_ends C Hr Hs n f). Qed.
Print Assumptions C52_fixed_always_ends.

(** Segment 0 arrives, then nothing: two slots expire in turn, twice each. *)
Example C52_case :
  let C := XConfig 2 1 d_appnack in
  let h m := x_history (x_run C (xfirst m fading)) in
  (forall m k d, In (OGotData k d) (h m) -> (k <= 0)%N) /\
  (forall m, awaited (h m) <> [] -> exists j, (m <= j)%nat /\ h (S j) <> h j) /\
  existsb is_over (h 4%nat) = false /\ existsb is_over (h 5%nat) = true /\ count is_interest (h 5%nat) = 5.
Proof.
  cbv zeta. split; [exact fading_finite|]. split; [exact fading_fair|]. vm_compute. auto.
Qed.
