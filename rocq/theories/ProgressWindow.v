(** Progress of the AIMD pipeline: its window is always open. *)
From Verif Require Import Base PipelineBase PipelineSpec ProgressSpec AdaptiveModel AdaptiveLive Double WindowModel WindowTheorems.

Lemma aimd_never_hangs R (o : aimd_opts) (r0 : R) rto sample backoff (C : aconfig) (n : N) (es : list aevent) :
    aimd_sane o -> aimd_moderate o ->
    let h := a_history (a_run (aimd_policy o r0 rto sample backoff) C es) in
    Z.of_nat (length (filter (fun x => match x with OWindow _ => true | _ => false end) h)) <= 4398046511104 ->
    honest n h -> on_track (c_maxRetries C) h -> existsb is_over h = false -> ~ In OThrow h ->
    outstanding h <> [].
Proof.
  intros Ho Hm. cbv zeta. intros Hl Hh Ht Hov Hth.
  apply (never_hangs C (aimd_policy o r0 rto sample backoff) n es); auto. split.
  - apply (aimd_allows' o []); auto. cbn. lia.
  - intros w Hw. eapply (aimd_pipeline R o r0 rto sample backoff C es); eauto.
Qed.
