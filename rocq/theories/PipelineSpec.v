(** Vocabulary for statements about pipeline runs: functions of the observable trace in
    chronological order. *)
From Verif Require Import Base PipelineBase.

(** The final segment number announced by the first received Data that carries one. *)
Fixpoint known_last (h : list pobs) : option N :=
  match h with
  | [] => None
  | OGotData _ d :: h' => match d_fbi d with FbiSegment n => Some n | _ => known_last h' end
  | _ :: h' => known_last h'
  end.

(** Segments of the first-time Interests, in order of sending. *)
Definition first_sends (h : list pobs) : list N :=
  flat_map (fun o => match o with OInterest seg false => [seg] | _ => [] end) h.

(** 0, 1, ..., n-1 *)
Definition upto (n : nat) : list N := map N.of_nat (seq 0 n).

(** Interests sent for one segment. *)
Definition is_send (seg : N) (o : pobs) : bool :=
  match o with OInterest k _ => N.eqb k seg | _ => false end.
Definition is_resend (seg : N) (o : pobs) : bool :=
  match o with OInterest k true => N.eqb k seg | _ => false end.

(** What was handed to the application, in order. *)
Definition deliveries (h : list pobs) : list (N * data) :=
  flat_map (fun o => match o with ODeliver seg d => [(seg, d)] | _ => [] end) h.

(** The run is over. *)
Definition is_over (o : pobs) : bool :=
  match o with OFail _ | ODone | OGotCancel => true | _ => false end.
Definition is_failure (o : pobs) : bool := match o with OFail _ => true | _ => false end.
Definition is_done (o : pobs) : bool := match o with ODone => true | _ => false end.
(** The pipeline acts: sends an Interest or hands over a segment or reports something. *)
Definition is_action (o : pobs) : bool :=
  match o with OInterest _ _ | ODeliver _ _ | OFail _ | ODone => true | _ => false end.

(** A genuine producer of the content made of the segments [chunks] (at least one):
    Data for segment k carries the k-th chunk, is not an application Nack, and its
    FinalBlockId, if present, names the last chunk. *)
Definition genuine (chunks : list (list N)) (seg : N) (d : data) : Prop :=
  nth_error chunks (N.to_nat seg) = Some (d_content d) /\
  d_appnack d = false /\
  (d_fbi d = FbiAbsent \/ d_fbi d = FbiSegment (N.of_nat (length chunks - 1))).

(** Segment [seg] could not be retrieved: a Nack with a reason that is not retried
    arrived for it, or all the permitted retransmissions of its Interest were made. *)
Definition refused (h : list pobs) (seg : N) (rr : nack_reason) : Prop :=
  rr <> NrDuplicate /\ rr <> NrCongestion /\ In (OGotNack seg rr) h.
Definition exhausted (maxRetries : Z) (h : list pobs) (seg : N) : Prop :=
  maxRetries <> -1 /\ count (is_resend seg) h = Z.max 1 maxRetries.

(** A failure report is justified by the history before it: the named segment belongs to
    the content (it is not after the announced final segment) and could not be retrieved;
    or some segment could not be retrieved and no Data with a FinalBlockId was received. *)
Definition failure_justified (maxRetries : Z) (h : list pobs) (r : freason) : Prop :=
  match r with
  | RNoFinal =>
      known_last h = None /\
      exists seg, (exists rr, refused h seg rr) \/ exhausted maxRetries h seg
  | RNack seg rr =>
      refused h seg rr /\ exists n, known_last h = Some n /\ (seg <= n)%N
  | RMaxRetries seg =>
      exhausted maxRetries h seg /\ exists n, known_last h = Some n /\ (seg <= n)%N
  | _ => False
  end.

(** Outstanding Interests: sent, and since then neither answered nor declared lost (timer
    or lifetime expired, congestion Nack) nor abandoned. *)
Definition fl_step (l : list N) (o : pobs) : list N :=
  match o with
  | OInterest k _ => k :: remove N.eq_dec k l
  | ORto k | OGotExpiry k | OGotNack k NrCongestion | ODeliver k _ | OAbandon k =>
      remove N.eq_dec k l
  | _ => l
  end.
Definition outstanding (h : list pobs) : list N := fold_left fl_step h [].

(** The congestion window in force, rounded down; [w0] initially. *)
Definition window (w0 : Z) (h : list pobs) : Z :=
  fold_left (fun w o => match o with OWindow w' => w' | _ => w end) h w0.

(** A loss signal (congestion Nack, lifetime expiry) or an abandonment never concerns a
    segment that is not outstanding at that moment. *)
Definition no_stale_loss (h : list pobs) : Prop :=
  forall h1 o h2, h = h1 ++ o :: h2 ->
    match o with
    | OGotNack k NrCongestion | OGotExpiry k | OAbandon k => In k (outstanding h1)
    | _ => True
    end.

(** How often that happened; [l]: the segments outstanding before [h]. *)
Fixpoint stale_losses_from (l : list N) (h : list pobs) : Z :=
  match h with
  | [] => 0
  | o :: h' =>
      match o with
      | OGotNack k NrCongestion | OGotExpiry k | OAbandon k => if existsb (N.eqb k) l then 0 else 1
      | _ => 0
      end + stale_losses_from (fl_step l o) h'
  end.
Definition stale_losses (h : list pobs) : Z := stale_losses_from [] h.

(** Loss of the Interest for a segment: its retransmission timer or its lifetime expired,
    or a congestion Nack arrived. *)
Definition lost (seg : N) (o : pobs) : bool :=
  match o with ORto k | OGotExpiry k | OGotNack k NrCongestion => N.eqb k seg | _ => false end.
(** The window is decreased. *)
Definition is_decr (o : pobs) : bool :=
  match o with ODecrLoss _ | ODecrMark _ => true | _ => false end.
