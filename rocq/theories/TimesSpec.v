(** Vocabulary for statements about times: when an Interest was sent, and what the estimator of
    round-trip times has been told. *)
From Verif Require Import Base PipelineBase PipelineSpec AdaptiveModel.

(** [hist es]: what has happened when the events [es] have.  The latest Interest for segment [k]
    was sent in reaction to the last event of [es1] (at the start, if there is none), and none
    during [es2]. *)
Definition sent_at (hist : list aevent -> list pobs) (k : N) (es1 es2 : list aevent) : Prop :=
  count (is_send k) (hist (es1 ++ es2)) = count (is_send k) (hist es1) /\
  match es1 with [] => 0 | _ => count (is_send k) (hist (removelast es1)) end < count (is_send k) (hist es1).

(** The estimator has been given the measured round-trip times, and has been told to back off when
    the window was decreased because of a loss. *)
Definition estimate {W R} (P : policy W R) (h : list pobs) : R :=
  fold_left (fun r o => match o with
                        | ORttSample _ rtt n => p_sample P rtt n r
                        | ODecrLoss _ => p_backoff P r
                        | _ => r
                        end) h (p_initR P).
