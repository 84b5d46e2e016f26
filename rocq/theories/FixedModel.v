(** Model of tools/chunks/catchunks/pipeline-interests-fixed.{hpp,cpp} on top of the model
    of DataFetcher.

    Environment: an event addresses the fetcher in one slot of m_segmentFetchers; a slot is
    reused only after its fetcher has finished, so that no other fetcher waits for Face or
    timer events.  An exception (from the data callback, or from Component::toSegment for a
    FinalBlockId that is not a segment number) leaves the event loop and ends the program:
    [x_crashed].  Not modelled: verbose messages. *)
From Verif Require Import Base PipelineBase FetcherModel.

(** element of m_segmentFetchers, fixed.hpp L86 *)
Notation slot := (option (fetcher * N)).

Record xconfig := XConfig {
  xc_size       : nat;           (* options.maxPipelineSize *)
  xc_maxRetries : Z;             (* options.maxRetriesOnTimeoutOrNack *)
  xc_cbThrows   : data -> bool   (* does the data callback throw on this Data? *)
}.

(** members fixed.hpp L86-92 and base class *)
Record xstate := XState {
  x_b          : pbase;
  x_slots      : list slot;
  x_hasFailure : bool;
  x_crashed    : bool;
  x_tr         : list pobs       (* latest first *)
}.

Definition x_emit (o : pobs) (s : xstate) : xstate :=
  XState (x_b s) (x_slots s) (x_hasFailure s) (x_crashed s) (o :: x_tr s).
Definition x_setB (b : pbase) (s : xstate) : xstate :=
  XState b (x_slots s) (x_hasFailure s) (x_crashed s) (x_tr s).
Definition x_setSlots (l : list slot) (s : xstate) : xstate :=
  XState (x_b s) l (x_hasFailure s) (x_crashed s) (x_tr s).
Definition x_setFailure (s : xstate) : xstate :=
  XState (x_b s) (x_slots s) true (x_crashed s) (x_tr s).
Definition x_crash (s : xstate) : xstate :=
  XState (x_b s) (x_slots s) (x_hasFailure s) true (OThrow :: x_tr s).

(** m_segmentFetchers[i] = v *)
Fixpoint upd {A} (i : nat) (v : A) (l : list A) : list A :=
  match l, i with
  | [], _ => []
  | _ :: l', O => v :: l'
  | a :: l', S i' => a :: upd i' v l'
  end.

(** DataFetcher::cancel on a slot (fixed.cpp L114-115, L145, L181); cancelling a running
    fetcher withdraws its Interest or timer *)
Definition cancelSlot (x : slot) : slot := match x with Some (f, k) => Some (f_cancel f, k) | None => None end.
Definition abandoned (x : slot) : list pobs :=
  match x with Some (f, k) => if f_isRunning f then [OAbandon k] else [] | None => [] end.

(** fixed.cpp L110-119 with pipeline-interests.cpp L66-74 *)
Definition x_cancel (s : xstate) : xstate :=
  if b_stopping (x_b s) then s
  else XState (b_setStopping (x_b s)) [] (x_hasFailure s) (x_crashed s)
              (rev (flat_map abandoned (x_slots s)) ++ x_tr s).

(** pipeline-interests.cpp L99-110: the callback is posted to the event loop; the trace
    records the posting *)
Definition x_onFailure (r : freason) (s : xstate) : xstate :=
  if b_stopping (x_b s) then s else x_emit (OFail r) (x_cancel s).

(** both retry limits are the same option, fixed.cpp L91-92 *)
Definition x_fconfig (C : xconfig) : fconfig := FConfig (xc_maxRetries C) (xc_maxRetries C).

(** fixed.cpp L66-108 *)
Definition fetchNextSegment (C : xconfig) (i : nat) (s : xstate) : xstate * bool :=
  if b_stopping (x_b s) then (s, false)
  else if x_hasFailure s then (x_onFailure RNoFinal s, false)
  else
    let '(next, b) := b_getNext (x_b s) in
    let s := x_setB b s in
    if b_hasFbi b && (b_last b <? next)%N then (s, false)
    else
      let s := x_emit (OInterest next false) s in
      let s := match nth_error (x_slots s) i with                          (* L104 *)
               | Some (Some (f, _)) => if f_isRunning f then x_emit OAssert s else s
               | _ => s
               end in
      (x_setSlots (upd i (Some (fst f_start, next)) (x_slots s)) s, true).

(** fixed.cpp L53-64: [k] iterations are left, [i] is the loop counter *)
Fixpoint x_doRun (C : xconfig) (k i : nat) (s : xstate) : xstate :=
  match k with
  | O => s
  | S k' => let '(s, ok) := fetchNextSegment C i s in
            if ok then x_doRun C k' (S i) s else s
  end.

(** fixed.cpp L139-151: the loop over the slots after the final segment became known.
    Result: slots after the loop, abandoned segments, and the first segment of the content
    whose fetcher has failed. *)
Fixpoint x_learn (last : N) (l : list slot) : list slot * list pobs * option N :=
  match l with
  | [] => ([], [], None)
  | None :: l' => let '(r, o, e) := x_learn last l' in (None :: r, o, e)
  | Some (f, k) :: l' =>
      if (last <? k)%N then
        let '(r, o, e) := x_learn last l' in
        (Some (f_cancel f, k) :: r, abandoned (Some (f, k)) ++ o, e)
      else if f_hasError f then (Some (f, k) :: l', [], Some k)
      else let '(r, o, e) := x_learn last l' in (Some (f, k) :: r, o, e)
  end.

(** fixed.cpp L154-161 *)
Definition x_advance (C : xconfig) (i : nat) (s : xstate) : xstate :=
  if b_allReceived (x_b s) then x_emit ODone s else fst (fetchNextSegment C i s).

(** fixed.cpp L121-162 *)
Definition x_handleData (C : xconfig) (i : nat) (seg : N) (d : data) (s : xstate) : xstate :=
  if b_stopping (x_b s) then s
  else
    let s := x_emit (ODeliver seg d) (x_setB (b_received d (x_b s)) s) in   (* L133 *)
    if xc_cbThrows C d then x_crash s
    else if b_hasFbi (x_b s) then x_advance C i s
    else match d_fbi d with
         | FbiAbsent => x_advance C i s
         | FbiInvalid => x_crash s                                           (* L136 *)
         | FbiSegment n =>
             let '(l, o, e) := x_learn n (x_slots s) in
             let s := XState (b_setFbi n (x_b s)) l (x_hasFailure s) (x_crashed s) (rev o ++ x_tr s) in
             match e with
             | Some k => x_onFailure (RSegment k) s                          (* L149 *)
             | None => x_advance C i s
             end
         end.

(** fixed.cpp L174-186: cancel what follows segment [k]; is everything else stopped? *)
Definition x_cancelAfter (k : N) (x : slot) : slot :=
  match x with Some (f, k') => if (k <? k')%N then Some (f_cancel f, k') else x | None => None end.
Definition x_abandonAfter (k : N) (x : slot) : list pobs :=
  match x with Some (f, k') => if (k <? k')%N then abandoned x else [] | None => [] end.
Definition x_runsBefore (k : N) (x : slot) : bool :=
  match x with Some (f, k') => negb (k <? k')%N && f_isRunning f | None => false end.

(** fixed.cpp L164-195 *)
Definition x_handleFail (seg : N) (s : xstate) : xstate :=
  if b_stopping (x_b s) then s
  else if b_hasFbi (x_b s) && (seg <=? b_last (x_b s))%N then x_onFailure (RFetch seg) s
  else if b_hasFbi (x_b s) then s
  else
    let go_on := existsb (x_runsBefore seg) (x_slots s) in
    let s := XState (x_b s) (map (x_cancelAfter seg) (x_slots s)) (x_hasFailure s) (x_crashed s)
                    (rev (flat_map (x_abandonAfter seg) (x_slots s)) ++ x_tr s) in
    if go_on then x_setFailure s else x_onFailure RNoFinal s.

(** what the pipeline makes of the actions of the fetcher in slot [i] *)
Definition x_react (C : xconfig) (i : nat) (seg : N) (d : data) (s : xstate) (o : fobs) : xstate :=
  match o with
  | FoInterest => x_emit (OInterest seg true) s
  | FoGotData => x_emit (OGotData seg d) s
  | FoGotNack r => x_emit (OGotNack seg r) s
  | FoGotTimeout => x_emit (OGotExpiry seg) s
  | FoGotCancel => s
  | FoBackoff ms => x_emit (OBackoff seg ms) s
  | FoDataCb => x_handleData C i seg d s                 (* fixed.cpp L93-95 *)
  | FoFailCb _ => x_handleFail seg s                     (* fixed.cpp L96-101 *)
  end.

Inductive xevent :=
| XeData (i : nat) (d : data) | XeNack (i : nat) (r : nack_reason) | XeTimeout (i : nat)
| XeTimer (i : nat) | XeCancel.

Definition no_data : data := Data [] FbiAbsent false false.

Definition x_slotEvent (C : xconfig) (i : nat) (d : data) (e : fevent) (s : xstate) : xstate :=
  match nth_error (x_slots s) i with
  | Some (Some (f, seg)) =>
      let '(f', os) := f_step (x_fconfig C) f e in
      fold_left (x_react C i seg d) os (x_setSlots (upd i (Some (f', seg)) (x_slots s)) s)
  | _ => s
  end.

Definition x_step (C : xconfig) (s : xstate) (e : xevent) : xstate :=
  if x_crashed s then s
  else match e with
  | XeData i d => x_slotEvent C i d FeData s
  | XeNack i r => x_slotEvent C i no_data (FeNack r) s
  | XeTimeout i => x_slotEvent C i no_data FeTimeout s
  | XeTimer i => x_slotEvent C i no_data FeTimer s
  | XeCancel => x_cancel (x_emit OGotCancel s)
  end.

(** fixed.cpp L37-46, L53-64 *)
Definition x_init (C : xconfig) : xstate :=
  XState b_init (repeat None (xc_size C)) false false [].
Definition x_run (C : xconfig) (es : list xevent) : xstate :=
  fold_left (x_step C) es (x_doRun C (xc_size C) 0 (x_init C)).
Definition x_history (s : xstate) : list pobs := rev (x_tr s).
