(** Vocabulary for statements about version discovery. *)
From Verif Require Import Base TlvModel FetcherModel PutchunksModel PutchunksSpec DiscoverModel.
Local Open Scope Z_scope.

Definition is_outcome (o : dobs) : bool := match o with DoSuccess _ | DoFailure => true | _ => false end.
Definition is_dnack (o : dobs) : bool := match o with DoGotNack _ => true | _ => false end.
Definition is_dtimeout (o : dobs) : bool := match o with DoGotTimeout => true | _ => false end.

(** Packet [p] is valid metadata that announces the versioned name [n]: its name is that of a
    metadata packet and its content is the encoding of [n], which ends with a version. *)
Definition announces (p : packet) (n : name) : Prop :=
  (exists pre v s, k_name p = pre ++ [metadata_comp; v; s] /\ is_version v = true /\ is_segment s = true) /\
  decode_name (k_content p) = Some n /\
  exists pre c, n = pre ++ [c] /\ is_version c = true.

(** Discovery may fail: the answer is not valid metadata, or no answer could be had. *)
Definition failure_allowed (retries : Z) (h : list dobs) : Prop :=
  (exists p, In (DoGotData p) h /\ forall n, ~ announces p n) \/
  (exists r, In (DoGotNack r) h /\ r <> NrDuplicate /\ r <> NrCongestion) \/
  (retries <> -1 /\ (retries < count is_dnack h \/ retries < count is_dtimeout h)).

(** Every Data that arrives satisfies the discovery Interest and was published by the
    producer. *)
Definition honest_discovery (digest : packet -> component) (cv : convention) (P : producer) (prefix : name) (h : list dobs) : Prop :=
  forall p, In (DoGotData p) h ->
    published digest cv P p /\ matches_data digest (discovery_interest prefix) p = true.

(** The client is started with the name that the producer serves, or with the producer's
    prefix and goes through discovery over a network that does not forge packets. *)
Definition client_of (digest : packet -> component) (cv : convention) (P : producer) (dc : dconfig) (h : list dobs) : Prop :=
  dc_prefix dc = pr_vprefix P \/
  (dc_prefix dc = pr_prefix P /\ dc_disable dc = false /\
   (forall pre v, dc_prefix dc = pre ++ [v] -> is_version v = false) /\
   honest_discovery digest cv P (dc_prefix dc) h).

(** a name that can be encoded at all *)
Definition encodable (n : name) : Prop :=
  Forall (fun c => (0 < c_type c < 4294967296)%N /\ (N.of_nat (length (c_value c)) < 18446744073709551616)%N) n /\
  (N.of_nat (length (flat_map (fun c => tlv (c_type c) (c_value c)) n)) < 18446744073709551616)%N.
