(** Properties C11 and C13: one fetch with retries. *)
From Verif Require Import Base FetcherModel FetcherSpec FetcherProofs.

(** C11 (a): never more than 1 + N + T Interests. *)
Theorem C11_fetcher_interest_budget :
  forall (c : fconfig) (es : list fevent),
    0 <= fc_maxNack c -> 0 <= fc_maxTimeout c ->
    count is_interest (snd (f_run c es)) <= 1 + fc_maxNack c + fc_maxTimeout c.
Proof. exact fetcher_budget_lemma. Qed.
Print Assumptions C11_fetcher_interest_budget.

(** the bound is reached *)
Example C11_budget_tight :
  count is_interest (snd (f_run (FConfig 2 1)
    [FeNack NrDuplicate; FeTimeout; FeNack NrCongestion; FeTimer; FeTimeout])) = 4.
Proof. vm_compute. reflexivity. Qed.

(** C11 (b): after the outcome was reported, or after a cancel, nothing happens any
    more (no Interest, no timer, no second callback), whatever events follow. *)
Theorem C11_fetcher_single_outcome :
  forall (c : fconfig) (es : list fevent) h o rest,
    snd (f_run c es) = h ++ o :: rest -> is_end o = true ->
    Forall (fun x => x = FoGotCancel) rest.
Proof. exact fetcher_end_lemma. Qed.
Print Assumptions C11_fetcher_single_outcome.

Example C11_single_outcome_case :
  snd (f_run (FConfig 3 3) [FeTimeout; FeData; FeData; FeNack NrDuplicate; FeCancel])
  = [FoInterest; FoGotTimeout; FoInterest; FoGotData] ++ FoDataCb :: [FoGotCancel].
Proof. vm_compute. reflexivity. Qed.

(** C11 (c): giving up is justified: exactly N retryable Nacks (or T timeouts) were
    tolerated before, or the Nack reason is not retryable. *)
Theorem C11_fetcher_failure_justified :
  forall (c : fconfig) (es : list fevent) h k rest,
    snd (f_run c es) = h ++ FoFailCb k :: rest ->
    justified (fc_maxNack c) (fc_maxTimeout c) h k.
Proof. exact fetcher_fail_lemma. Qed.
Print Assumptions C11_fetcher_failure_justified.

Example C11_failure_case :
  exists h, snd (f_run (FConfig 1 1) [FeTimeout; FeNack NrDuplicate; FeTimeout])
            = h ++ FoFailCb CTimeoutLimit :: [].
Proof. now exists [FoInterest; FoGotTimeout; FoInterest; FoGotNack NrDuplicate; FoInterest; FoGotTimeout]. Qed.

(** C11 (d): the data callback is invoked only for Data from the Face. *)
Theorem C11_fetcher_data_genuine :
  forall (c : fconfig) (es : list fevent) h rest,
    snd (f_run c es) = h ++ FoDataCb :: rest -> exists h0, h = h0 ++ [FoGotData].
Proof. exact fetcher_data_lemma. Qed.
Print Assumptions C11_fetcher_data_genuine.

(** C11 (e): while the fetch is not over, every Nack and every timeout so far was within
    its budget and has been answered by exactly one new Interest, except that the
    latest one may still be waiting for its backoff timer.  In particular the fetch
    is never idle and with infinite budgets it never gives up on retryable events. *)
Theorem C11_fetcher_retries_everything :
  forall (c : fconfig) (es : list fevent),
    let tr := snd (f_run c es) in
    Forall (fun o => is_end o = false) tr ->
    (fc_maxNack c <> -1 -> count is_nack tr <= Z.max 0 (fc_maxNack c)) /\
    (fc_maxTimeout c <> -1 -> count is_timeout tr <= Z.max 0 (fc_maxTimeout c)) /\
    (count is_interest tr = 1 + count is_nack tr + count is_timeout tr \/
     count is_interest tr = count is_nack tr + count is_timeout tr /\
     exists h d, tr = h ++ [FoBackoff d]).
Proof. exact fetcher_retry_lemma. Qed.
Print Assumptions C11_fetcher_retries_everything.

Example C11_retries_case :
  Forall (fun o => is_end o = false)
    (snd (f_run (FConfig (-1) (-1)) [FeTimeout; FeNack NrCongestion; FeTimer; FeTimeout; FeNack NrDuplicate])).
Proof. vm_compute. repeat constructor. Qed.

(** C13 as stated is false: the second congestion backoff is not longer than the first,
    because every expressed Interest resets the counter (data-fetcher.cpp L80). *)
Theorem C13_backoff_grows_refuted :
  exists (c : fconfig) (es : list fevent) (n : nat),
    let b := backoffs (snd (f_run c es)) in
    length b = n /\ (2 <= n)%nat /\ b <> exponential_backoffs n.
Proof.
  exists (FConfig 15 15), [FeNack NrCongestion; FeTimer; FeNack NrCongestion], 2%nat.
  vm_compute. repeat split; [repeat constructor|discriminate].
Qed.
Print Assumptions C13_backoff_grows_refuted.

(** What holds instead: every congestion backoff lasts exactly 1 ms. *)
Theorem C13_backoff_constant :
  forall (c : fconfig) (es : list fevent) d,
    In d (backoffs (snd (f_run c es))) -> d = 1.
Proof. exact fetcher_backoff_lemma. Qed.
Print Assumptions C13_backoff_constant.
