(** Vocabulary for ndncatchunks and ndnputchunks as programs that talk to each other. *)
From Verif Require Import Base TlvModel PipelineBase PutchunksModel PutchunksSpec DiscoverModel CatRunModel.
From Coq Require Import List.
Import ListNotations.

(** The name [n] given to ndncatchunks: the name with the version that ndnputchunks uses, or the
    name without, so that the version is found by discovery. *)
Inductive fits_name (plain : name) (v : component) (a : cat_args) : name -> Prop :=
| Fn_versioned : fits_name plain v a (plain ++ [v])
| Fn_plain : ca_noDiscovery a = false -> (forall pre w, plain = pre ++ [w] -> version_of w = None) -> fits_name plain v a plain.

(** The network loses, delays, reorders, duplicates and caches packets, but forges none: every Data
    that reaches ndncatchunks was sent by the other program ([sent]), and satisfies the Interest,
    which is checked by the Face.  [des], [dh]: the events and the course of the discovery; [h]:
    the course of the transfer. *)
Section Network.
Variables (digest : packet -> component) (sent : list reply) (cv : convention) (a : cat_args) (n : name).
Record forges_nothing (des : list devent) (dh : list dobs) (h : list pobs) : Prop := Forges {
  fn_metadata : forall p, In (DeData p) des ->
    In (RpData p) sent /\ matches_data digest (discovery_interest n) p = true;
  fn_segment : forall vname, In (DoSuccess vname) dh -> forall seg d, In (OGotData seg d) h ->
    (seg < 2 ^ 64)%N /\
    exists p, In (RpData p) sent /\ seen_as p d /\ matches_data digest (segment_interest cv vname seg (ca_fresh a)) p = true
}.
End Network.
