(** The summary printed at completion: tools/chunks/catchunks/pipeline-interests-adaptive.cpp
    L421-444 and pipeline-interests.cpp L125-138.  Not modelled: elapsed time and goodput
    (see ThroughputModel), RTT minimum/average/maximum (ndn-cxx). *)
From Verif Require Import Base BaseFacts PipelineBase PipelineSpec AdaptiveModel AdaptiveProofs AdaptiveInv2 AdaptiveTheorems.

(** the numbers printed *)
Record summary := Summary {
  su_received : Z; su_bytes : Z; su_marks : Z; su_markDecr : Z; su_timeouts : Z;
  su_lossDecr : Z; su_retx : Z; su_sent : Z; su_skipped : Z
}.

(** adaptive.cpp L421-430, pipeline-interests.cpp L133-135 *)
Definition printSummary {W R} (s : @astate W R) : summary :=
  Summary (b_nReceived (a_b s)) (b_recvSize (a_b s)) (a_nCongMarks s) (a_nMarkDecr s)
          (a_nTimeouts s) (a_nLossDecr s) (a_nRetx s) (a_nSent s) (a_nSkipped s).

(** the same numbers, counted in the history *)
Definition summary_of (h : list pobs) : summary :=
  Summary
    (Z.of_nat (length (deliveries h)))
    (Z.of_nat (length (concat (map (fun p => d_content (snd p)) (deliveries h)))))
    (Z.of_nat (length (filter (fun p => d_mark (snd p)) (deliveries h))))
    (count (fun o => match o with ODecrMark _ => true | _ => false end) h)
    (count (fun o => match o with OGotExpiry _ | ORto _ => true | _ => false end) h)
    (count (fun o => match o with ODecrLoss _ => true | _ => false end) h)
    (count (fun o => match o with OInterest _ true => true | _ => false end) h)
    (count (fun o => match o with OInterest _ _ => true | _ => false end) h)
    (count (fun o => match o with OSkip _ => true | _ => false end) h).

Lemma count_marked h : count is_marked h = Z.of_nat (length (filter (fun p => d_mark (snd p)) (deliveries h))).
Proof.
  induction h as [|o h IH]; [reflexivity|]. rewrite count_cons, IH.
  change (o :: h) with ([o] ++ h). rewrite deliveries_app, filter_app, app_length.
  destruct o; cbn; try lia. destruct (d_mark d); cbn; lia.
Qed.

Section Summary.
Context {W R : Type}.
Variable P : policy W R.
Variable C : aconfig.
Variable es : list aevent.
Notation s := (a_run P C es).
Notation h := (a_history (a_run P C es)).

Lemma adaptive_summary : printSummary s = summary_of h.
Proof.
  destruct (proj1 (inv_run C P es)).
  unfold printSummary, summary_of. rewrite <- count_marked.
  unfold a_history. rewrite !count_rev.
  rewrite A_recv, A_size, A_mark, A_dmark, A_to, A_dloss, A_retx, A_sent, A_skip.
  rewrite <- dsize_rev, rev_involutive.
  f_equal. rewrite <- (rev_involutive (a_tr s)) at 1. now rewrite dl_rev, rev_length, map_length.
Qed.

Lemma adaptive_retx_le_lost :
  su_retx (printSummary s) + su_skipped (printSummary s) <=
  count (fun o => match o with OGotNack _ NrCongestion | OGotExpiry _ | ORto _ => true | _ => false end) h.
Proof.
  destruct (proj1 (inv_run C P es)). cbn. unfold a_history. rewrite count_rev.
  change (fun o : pobs => match o with OGotNack _ NrCongestion | OGotExpiry _ | ORto _ => true | _ => false end) with is_lost.
  lia.
Qed.
End Summary.
