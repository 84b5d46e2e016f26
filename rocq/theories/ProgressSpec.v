(** Vocabulary for the statements about progress of the adaptive pipelines. *)
From Verif Require Import Base PipelineBase PipelineSpec AdaptiveModel.

(** The producer publishes segments 0..n only and announces no other final segment. *)
Definition honest (n : N) (h : list pobs) : Prop :=
  forall k d, In (OGotData k d) h -> (k <= n)%N /\ (d_fbi d = FbiAbsent \/ d_fbi d = FbiSegment n).

(** The congestion window, rounded down, was never less than one Interest. *)
Definition open_window (w0 : Z) (h : list pobs) : Prop :=
  1 <= w0 /\ forall w, In (OWindow w) h -> 1 <= w.

(** The final segment is known, or nothing has gone wrong yet: no segment was refused by a
    fatal Nack and none used up its retransmissions. *)
Definition on_track (maxRetries : Z) (h : list pobs) : Prop :=
  known_last h <> None \/
  (forall seg rr, ~ refused h seg rr) /\ (forall seg, ~ exhausted maxRetries h seg).

(** Silence: time passes and the retransmission timer is checked, nothing arrives. *)
Definition silent (e : aevent) : Prop :=
  match e with AeTick _ | AeRto _ => True | _ => False end.

(** The first [m] events of an infinite schedule, and the time they take. *)
Definition first (m : nat) (f : nat -> aevent) : list aevent := map f (seq 0 m).
Definition elapsed (m : nat) (f : nat -> aevent) : Z :=
  fold_right Z.add 0 (map (fun e => match e with AeTick dt => Z.of_N dt | _ => 0 end) (first m f)).

(** Time does not stand still and the timer is checked again and again. *)
Definition keeps_going (f : nat -> aevent) : Prop :=
  forall m T, exists j order, (m <= j)%nat /\ f j = AeRto order /\ T <= elapsed j f.
