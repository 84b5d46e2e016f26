(** Vocabulary for statements about the fixed pipeline. *)
From Verif Require Import Base PipelineBase PipelineSpec.

(** Interests in flight: sent, and since then neither answered by Data or a Nack nor expired
    nor withdrawn. *)
Definition flight_step (l : list N) (o : pobs) : list N :=
  match o with
  | OInterest k _ => k :: remove N.eq_dec k l
  | OGotData k _ | OGotNack k _ | OGotExpiry k | OAbandon k => remove N.eq_dec k l
  | _ => l
  end.
Definition in_flight (h : list pobs) : list N := fold_left flight_step h [].

(** Segments whose Interest is in flight or whose retry timer is running. *)
Definition await_step (l : list N) (o : pobs) : list N :=
  match o with
  | OInterest k _ | OBackoff k _ => k :: remove N.eq_dec k l
  | OGotData k _ | OGotNack k _ | OGotExpiry k | OAbandon k => remove N.eq_dec k l
  | _ => l
  end.
Definition awaited (h : list pobs) : list N := fold_left await_step h [].

Definition nack_for (seg : N) (o : pobs) : bool := match o with OGotNack k _ => N.eqb k seg | _ => false end.
Definition expiry_for (seg : N) (o : pobs) : bool := match o with OGotExpiry k => N.eqb k seg | _ => false end.

(** Segment [seg] could not be retrieved with at most [r] retries (-1: any number): a Nack
    arrived whose reason is not retried, or more than [r] Nacks, or more than [r] timeouts. *)
Definition gave_up (r : Z) (h : list pobs) (seg : N) : Prop :=
  (exists rr, refused h seg rr) \/
  (r <> -1 /\ (r < count (nack_for seg) h \/ r < count (expiry_for seg) h)).

(** The claim: the failed segment is part of the content; or some segment could not be
    retrieved and no FinalBlockId was seen. *)
Definition failure_justified_fixed (r : Z) (h : list pobs) (rs : freason) : Prop :=
  match rs with
  | RFetch seg | RSegment seg =>
      gave_up r h seg /\ exists n, known_last h = Some n /\ (seg <= n)%N
  | RNoFinal => known_last h = None /\ exists seg, gave_up r h seg
  | _ => False
  end.

(** What does hold: the same without "no FinalBlockId was seen". *)
Definition failure_caused_fixed (r : Z) (h : list pobs) (rs : freason) : Prop :=
  match rs with
  | RFetch seg | RSegment seg =>
      gave_up r h seg /\ exists n, known_last h = Some n /\ (seg <= n)%N
  | RNoFinal => exists seg, gave_up r h seg
  | _ => False
  end.

(** the run was stopped *)
Definition is_stop (o : pobs) : bool := match o with OFail _ | OGotCancel => true | _ => false end.
