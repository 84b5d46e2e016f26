(** What the verbose messages of ndncatchunks say, and what they should say: functions of the
    messages and of the observable history of the pipeline (both in chronological order). *)
From Verif Require Import Base PipelineBase PipelineSpec Double DiscoverModel CatMsgModel DumpModel DecimalModel.

(** ** What the messages say *)

(** "Requesting segment #k" *)
Definition requested (m : list cmsg) : list N :=
  flat_map (fun x => match x with MRequest k => [k] | _ => [] end) m.
(** "Retransmitting segment #k" *)
Definition retransmitted (m : list cmsg) : list N :=
  flat_map (fun x => match x with MRetransmit k => [k] | _ => [] end) m.
(** "# of retries for segment #k is n" *)
Definition retries_told (m : list cmsg) : list (N * Z) :=
  flat_map (fun x => match x with MRetries k n => [(k, n)] | _ => [] end) m.
(** "Received segment #k..." *)
Definition received (m : list cmsg) : list N :=
  flat_map (fun x => match x with MReceived k | MReceivedRtt k _ _ => [k] | _ => [] end) m.
(** "Received congestion mark, ...", which reports a decrease of the window *)
Definition marks_told (m : list cmsg) : list N :=
  flat_map (fun x => match x with MMark k _ _ => [k] | _ => [] end) m.
(** "Packet loss event, ...", the same *)
Definition losses_told (m : list cmsg) : Z := count (fun x => match x with MLoss _ _ => true | _ => false end) m.
(** "Received Nack with reason r for Interest i": the [n]-th Interest for segment [k] *)
Definition nacks_told (m : list cmsg) : list (N * Z * nack_reason) :=
  flat_map (fun x => match x with MNack k n r => [(k, n, r)] | _ => [] end) m.
(** "Timeout for Interest i" *)
Definition timeouts_told (m : list cmsg) : list (N * Z) :=
  flat_map (fun x => match x with MTimeout k n => [(k, n)] | _ => [] end) m.
(** "All segments have been received. ..." *)
Definition summaries (m : list cmsg) : list text :=
  flat_map (fun x => match x with MSummary t => [t] | _ => [] end) m.

(** ** What has happened *)

(** segments of the repeated Interests, in order of sending *)
Definition resends (h : list pobs) : list N :=
  flat_map (fun o => match o with OInterest k true => [k] | _ => [] end) h.
(** [with_past f h]: [f past o] for every observation [o], with what had happened before it *)
Fixpoint with_past {A} (f : list pobs -> pobs -> list A) (past h : list pobs) : list A :=
  match h with [] => [] | o :: h => f past o ++ with_past f (o :: past) h end.
(** the repetitions that are not the first one of their segment, with their number *)
Definition later_resends (past h : list pobs) : list (N * Z) :=
  with_past (fun past o => match o with
                           | OInterest k true => if 0 <? count (is_resend k) past
                                                 then [(k, count (is_resend k) past + 1)] else []
                           | _ => []
                           end) past h.
(** the Nacks, with the segment and the number of its Interest *)
Definition nacks (past h : list pobs) : list (N * Z * nack_reason) :=
  with_past (fun past o => match o with OGotNack k r => [(k, count (is_send k) past, r)] | _ => [] end) past h.
(** the expired Interests, likewise *)
Definition expiries (past h : list pobs) : list (N * Z) :=
  with_past (fun past o => match o with OGotExpiry k => [(k, count (is_send k) past)] | _ => [] end) past h.
Definition decreases_by_mark (h : list pobs) : list N :=
  flat_map (fun o => match o with ODecrMark k => [k] | _ => [] end) h.
Definition decreases_by_loss (h : list pobs) : Z := count (fun o => match o with ODecrLoss _ => true | _ => false end) h.
Definition completions (h : list pobs) : Z := count is_done h.

(** [woven extra a b]: [a] is [b] with some elements that satisfy [extra] inserted *)
Inductive woven (extra : N -> Prop) : list N -> list N -> Prop :=
| W_nil : woven extra [] []
| W_both x a b : woven extra a b -> woven extra (x :: a) (x :: b)
| W_extra x a b : extra x -> woven extra a b -> woven extra (x :: a) b.

(** All permitted retransmissions of a segment have been made. *)
Definition used_up (retries : Z) (h : list pobs) (k : N) : Prop :=
  retries <> -1 /\ Z.max 1 retries <= count (is_resend k) h.

(** The messages [m] describe what happened in [h], given what happened [past] before it
    (latest first).  [tl]: the fixed pipeline, which
    reports expired Interests instead of retransmissions. *)
Record tells (retries : Z) (tl : bool) (past : list pobs) (m : list cmsg) (h : list pobs) : Prop := Tells {
  t_requested : requested m = first_sends h;
  t_retransmitted : if tl then retransmitted m = []
                    else woven (used_up retries (rev h ++ past)) (retransmitted m) (resends h);
  t_retries : retries_told m = if tl then [] else later_resends past h;
  t_received : received m = map fst (deliveries h);
  t_marks : marks_told m = decreases_by_mark h;
  t_losses : losses_told m = decreases_by_loss h;
  t_nacks : nacks_told m = nacks past h;
  t_timeouts : timeouts_told m = if tl then expiries past h else [];
  t_summaries : Z.of_nat (length (summaries m)) = completions h
}.

(** The messages of the version discovery: one for each packet received or expired Interest, with
    the number of the Interest, and one for the version that was found.  [sent]: the Interests sent
    before. *)
Fixpoint discovery_messages (sent : Z) (h : list dobs) : list cmsg :=
  match h with
  | [] => []
  | DoInterest _ :: h => discovery_messages (sent + 1) h
  | DoGotData p :: h => MMetadata p :: discovery_messages sent h       (* "Data: ..." *)
  | DoGotNack r :: h => MDiscNack sent r :: discovery_messages sent h
  | DoGotTimeout :: h => MDiscTimeout sent :: discovery_messages sent h
  | DoSuccess n :: h => MVersion n :: discovery_messages sent h             (* "Discovered Data version: ..." *)
  | (DoBackoff _ | DoFailure) :: h => discovery_messages sent h
  end.
