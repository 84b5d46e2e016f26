(** The exit status of ndncatchunks: tools/chunks/catchunks/main.cpp L291-311, with
    consumer.cpp L40-57.

    The event loop (face.processEvents, main.cpp L295) returns once neither a pending
    Interest nor a scheduled event is left, or is left by an exception.  A failure of the
    version discovery or of the pipeline throws std::runtime_error (consumer.cpp L51, L54).
    Simplification: the pipeline posts its failure callback to the event loop
    (pipeline-interests.cpp L99-110); here the program ends with the posting.  After it the
    pipeline is stopped and nothing is delivered, so that no other exception can come
    first. *)
From Verif Require Import Base PipelineBase PipelineSpec FetcherModel FixedModel AdaptiveModel ConsumerModel CatchunksModel DiscoverModel.

(** the Face or the scheduler holds something for a fetcher of the fixed pipeline
    (data-fetcher.cpp L77-85, L121-133) *)
Definition slot_working (x : slot) : bool :=
  match x with
  | Some (f, _) => match f_phase f with PhNone => false | _ => true end
  | None => false
  end.
Definition x_working (s : xstate) : bool := existsb slot_working (x_slots s).

(** the same for the adaptive pipelines: the periodic timer (adaptive.cpp L66, L106) and the
    Interests expressed (adaptive.cpp L150-158) *)
Definition a_working {W R} (s : @astate W R) : bool := a_timer s || existsb (fun e => si_live (snd e)) (a_segs s).

Definition is_throw (o : pobs) : bool := match o with OThrow => true | _ => false end.

(** main.cpp L296-311, once the pipeline has been started; [None]: still running *)
Definition pipeline_status (working : bool) (h : list pobs) : option Z :=
  match co_exit (catchunks_consumer h) with
  | Some status => Some status                                     (* L297-304 *)
  | None =>
      if existsb is_throw h || existsb is_failure h then Some 1    (* L305-308 *)
      else if working then None else Some 0                        (* L311 *)
  end.

Definition is_dfailure (o : dobs) : bool := match o with DoFailure => true | _ => false end.
Definition is_dsuccess (o : dobs) : bool := match o with DoSuccess _ => true | _ => false end.

(** the whole program: the discovery starts the pipeline or ends the program *)
Definition catchunks_status (dh : list dobs) (working : bool) (h : list pobs) : option Z :=
  if existsb is_dfailure dh then Some 1
  else if existsb is_dsuccess dh then pipeline_status working h
  else None.
