(** Vocabulary for statements about ndnputchunks and about the composition with
    ndncatchunks. *)
From Verif Require Import Base TlvModel PutchunksModel PipelineBase.

(** the Interest that ndncatchunks sends for a segment: the segment number is appended in
    the client's naming convention, CanBePrefix is not set *)
Definition segment_interest (cv : convention) (vname : name) (seg : N) (mustBeFresh : bool) : interest :=
  Interest (vname ++ [segment_comp cv seg]) false mustBeFresh.

(** A Data packet as the chunk consumer sees it: it may have collected a congestion mark on
    its way. *)
Definition seen_as (p : packet) (d : data) : Prop :=
  d_content d = k_content p /\
  d_appnack d = false /\
  d_fbi d = match k_fbi p with
            | None => FbiAbsent
            | Some c => match segment_of c with Some n => FbiSegment n | None => FbiInvalid end
            end.

(** the producer's Data: everything it may ever send in reply to any Interest at any time *)
Definition published (digest : packet -> component) (cv : convention) (P : producer) (p : packet) : Prop :=
  exists now i, In (RpData p) (producer_replies digest cv now P i).

(** The network loses, delays, reorders, duplicates and caches packets, but does not forge
    them: every Data that arrives for segment [seg] satisfies the client's Interest for this
    segment (the Face checks this) and was published by the producer.  Segment numbers are
    64-bit numbers. *)
Definition honest_network (digest : packet -> component) (cv : convention) (P : producer)
    (client_cv : convention) (vname : name) (mustBeFresh : bool) (h : list pobs) : Prop :=
  forall seg d, In (OGotData seg d) h ->
    (seg < 18446744073709551616)%N /\
    exists p, published digest cv P p /\ seen_as p d /\
              matches_data digest (segment_interest client_cv vname seg mustBeFresh) p = true.

(** [chunks] is [input] cut into pieces of [size] bytes: at least one piece, all but the last
    are full, and the last is empty only if it is the only one.  (This determines [chunks].) *)
Definition segmentation (size : nat) (input : list N) (chunks : list (list N)) : Prop :=
  concat chunks = input /\
  exists full last, chunks = full ++ [last] /\
    Forall (fun c => length c = size) full /\ (length last <= size)%nat /\ (full <> [] -> (0 < length last)%nat).
