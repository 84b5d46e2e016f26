(** Model of tools/chunks/catchunks/discover-version.{hpp,cpp} on top of DataFetcher.
    Not modelled: verbose messages, the text of the failure reason. *)
From Verif Require Import Base TlvModel FetcherModel PutchunksModel.

Record dconfig := DConfig {
  dc_disable : bool;      (* options.disableVersionDiscovery *)
  dc_retries : Z;         (* options.maxRetriesOnTimeoutOrNack *)
  dc_prefix  : name
}.

(** what happens, in chronological order *)
Inductive dobs :=
| DoInterest (i : interest)
| DoGotData (p : packet) | DoGotNack (r : nack_reason) | DoGotTimeout
| DoBackoff (ms : Z)
| DoSuccess (n : name)        (* onDiscoverySuccess *)
| DoFailure.                  (* onDiscoveryFailure *)

Inductive devent := DeData (p : packet) | DeNack (r : nack_reason) | DeTimeout | DeTimer.

(** MetadataObject::MetadataObject(data) (ndn-cxx): [None] when tlv::Error is thrown.  The
    name must end with keyword, version and segment; the content is the versioned name. *)
Definition valid_metadata_name (n : name) : bool :=
  match rev n with
  | s :: v :: m :: _ => comp_eqb m metadata_comp && is_version v && is_segment s
  | _ => false
  end.
Definition metadata_of (p : packet) : option name :=
  if valid_metadata_name (k_name p) then decode_name (k_content p) else None.

(** discover-version.cpp L69-95 *)
Definition d_handleData (p : packet) : dobs :=
  match metadata_of p with
  | None => DoFailure
  | Some n => if ends_with_version n then DoSuccess n else DoFailure
  end.

(** discover-version.cpp L45-67; the Interest carries the configured lifetime *)
Definition d_skip (c : dconfig) : bool := dc_disable c || ends_with_version (dc_prefix c).
Definition d_fconfig (c : dconfig) : fconfig := FConfig (dc_retries c) (dc_retries c).

Definition d_react (c : dconfig) (e : devent) (o : fobs) : list dobs :=
  match o, e with
  | FoInterest, _ => [DoInterest (discovery_interest (dc_prefix c))]
  | FoGotData, DeData p => [DoGotData p]
  | FoGotNack r, _ => [DoGotNack r]
  | FoGotTimeout, _ => [DoGotTimeout]
  | FoBackoff ms, _ => [DoBackoff ms]
  | FoDataCb, DeData p => [d_handleData p]
  | FoFailCb _, _ => [DoFailure]                       (* L60-65 *)
  | _, _ => []
  end.

Definition fetch_event (e : devent) : fevent :=
  match e with DeData _ => FeData | DeNack r => FeNack r | DeTimeout => FeTimeout | DeTimer => FeTimer end.

Definition d_step (c : dconfig) (st : fetcher * list dobs) (e : devent) : fetcher * list dobs :=
  let '(f, os) := f_step (d_fconfig c) (fst st) (fetch_event e) in
  (f, snd st ++ flat_map (d_react c e) os).

(** the history of a discovery *)
Definition d_run (c : dconfig) (es : list devent) : list dobs :=
  if d_skip c then [DoSuccess (dc_prefix c)]
  else snd (fold_left (d_step c) es (fst f_start, [DoInterest (discovery_interest (dc_prefix c))])).
