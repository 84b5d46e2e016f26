(** The reasons that ndncatchunks gives for a failure, and when they are true. *)
From Verif Require Import Base TlvModel PipelineBase PipelineSpec FetcherModel FixedSpec AdaptiveModel PutchunksModel PutchunksSpec DiscoverModel DiscoverSpec CatMsgModel.
Local Open Scope Z_scope.

(** why a segment (the metadata) could not be fetched with at most [r] retries *)
Definition fetch_explained (r : Z) (refused : nack_reason -> Prop) (nacks timeouts : Z) (c : fcause) : Prop :=
  match c with
  | CNackReason rr => refused rr /\ rr <> NrDuplicate /\ rr <> NrCongestion
  | CNackLimit => r <> -1 /\ r < nacks
  | CTimeoutLimit => r <> -1 /\ r < timeouts
  end.

(** The history [h] of the pipeline explains the failure. *)
Definition pipeline_explained (justified : list pobs -> freason -> Prop) (r : Z) (h : list pobs) (f : failure) : Prop :=
  match f with
  | FlReason (RFetch _) => False                       (* the reason is always told: [FlSegment] *)
  | FlReason rs => exists h1 h2, h = h1 ++ OFail rs :: h2 /\ justified h1 rs
  | FlSegment seg c =>
      In (OFail (RFetch seg)) h /\
      fetch_explained r (fun rr => In (OGotNack seg rr) h) (count (nack_for seg) h) (count (expiry_for seg) h) c
  | FlAppNack seg d => In (OGotData seg d) h /\ In (ODeliver seg d) h /\ d_appnack d = true
  | FlFinalBlock seg d => In (OGotData seg d) h /\ d_fbi d = FbiInvalid
  | _ => False
  end.

(** Packet [p] is valid metadata with the name [n], versioned or not. *)
Definition metadata_with (p : packet) (n : name) : Prop :=
  (exists pre v s, k_name p = pre ++ [metadata_comp; v; s] /\ is_version v = true /\ is_segment s = true) /\
  decode_name (k_content p) = Some n.
(** The history [h] of the discovery explains the failure. *)
Definition discovery_explained (r : Z) (h : list dobs) (f : failure) : Prop :=
  match f with
  | FlDiscovery c => fetch_explained r (fun rr => In (DoGotNack rr) h) (count is_dnack h) (count is_dtimeout h) c
  | FlMetadata p => In (DoGotData p) h /\ forall n, ~ metadata_with p n
  | FlNotVersioned n =>
      exists p, In (DoGotData p) h /\ metadata_with p n /\ forall pre v, n = pre ++ [v] -> is_version v = false
  | _ => False
  end.
