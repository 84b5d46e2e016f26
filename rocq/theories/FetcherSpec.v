(** Vocabulary for statements about one fetch (trace predicates only). *)
From Verif Require Import Base FetcherModel.

Definition is_interest (o : fobs) : bool := match o with FoInterest => true | _ => false end.
Definition is_nack (o : fobs) : bool := match o with FoGotNack _ => true | _ => false end.
Definition is_timeout (o : fobs) : bool := match o with FoGotTimeout => true | _ => false end.
Definition is_cancel (o : fobs) : bool := match o with FoGotCancel => true | _ => false end.
(** the fetch is over: the caller was told the outcome, or the caller cancelled *)
Definition is_end (o : fobs) : bool :=
  match o with FoDataCb | FoFailCb _ | FoGotCancel => true | _ => false end.

(** Giving up for cause [c] is justified by the history [h], when at most [n] Nacks
    and [t] timeouts are to be retried ([-1] = infinitely many). *)
Definition justified (n t : Z) (h : list fobs) (c : fcause) : Prop :=
  match c with
  | CNackLimit => n <> -1 /\ count is_nack h = Z.max 0 n + 1
  | CTimeoutLimit => t <> -1 /\ count is_timeout h = Z.max 0 t + 1
  | CNackReason r => r <> NrDuplicate /\ r <> NrCongestion /\ exists h0, h = h0 ++ [FoGotNack r]
  end.

(** the delays that were scheduled, in order *)
Definition backoffs (h : list fobs) : list Z :=
  flat_map (fun o => match o with FoBackoff d => [d] | _ => [] end) h.

(** exponential backoff with the documented ceiling: 1, 2, 4, ... ms, at most 10 s *)
Definition exponential_backoffs (n : nat) : list Z :=
  map (fun k => Z.min (2 ^ Z.of_nat k) 10000) (seq 0 n).
