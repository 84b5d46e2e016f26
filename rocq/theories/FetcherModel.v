(** Model of tools/chunks/catchunks/data-fetcher.{hpp,cpp}.

    Environment (ndn-cxx Face and Scheduler, trusted): after [expressInterest] the
    Face calls exactly one of the three handlers at most once for that Interest, and
    not at all after the pending Interest was cancelled; a scheduled event fires at
    most once and not after [cancelAllEvents].  This is the [f_phase] component.
    Not modelled: the Interest's nonce, verbose messages, the texts of the
    messages (they are represented by [fcause]). *)
From Verif Require Import Base.

(** Which external event the fetcher is waiting for. *)
Inductive phase := PhNone | PhInterest | PhTimer.

(** data-fetcher.hpp L115-130: members.  [f_phase] stands for m_pendingInterest
    and the scheduler's pending event. *)
Record fetcher := Fetcher {
  f_nNacks    : Z;
  f_nTimeouts : Z;
  f_nCong     : Z;
  f_stopped   : bool;
  f_hasError  : bool;
  f_phase     : phase
}.

(** Why a fetch gave up (message texts at data-fetcher.cpp L137-138, L146-147, L171-172). *)
Inductive fcause := CNackReason (r : nack_reason) | CNackLimit | CTimeoutLimit.

(** Observable trace of one fetch: what came in from the Face, what went out. *)
Inductive fobs :=
| FoInterest                       (* an Interest is expressed *)
| FoGotData | FoGotNack (r : nack_reason) | FoGotTimeout | FoGotCancel
| FoBackoff (ms : Z)               (* a retry is scheduled after that delay *)
| FoDataCb                         (* m_onData is called *)
| FoFailCb (c : fcause).           (* m_onNack / m_onTimeout is called *)

Inductive fevent := FeData | FeNack (r : nack_reason) | FeTimeout | FeTimer | FeCancel.

(** data-fetcher.hpp L60: MAX_RETRIES_INFINITE *)
Definition MAX_RETRIES_INFINITE : Z := -1.
(** data-fetcher.hpp L65: MAX_CONGESTION_BACKOFF_TIME, in milliseconds *)
Definition MAX_CONGESTION_BACKOFF_TIME : Z := 10000.

Record fconfig := FConfig { fc_maxNack : Z; fc_maxTimeout : Z }.

(** data-fetcher.hpp L85-89 *)
Definition f_isRunning (f : fetcher) : bool := negb (f_stopped f) && negb (f_hasError f).

Definition f_setPhase (p : phase) (f : fetcher) : fetcher :=
  Fetcher (f_nNacks f) (f_nTimeouts f) (f_nCong f) (f_stopped f) (f_hasError f) p.

(** data-fetcher.cpp L77-85: note L80, the congestion counter is reset *)
Definition f_expressInterest (f : fetcher) : fetcher * list fobs :=
  (Fetcher (f_nNacks f) (f_nTimeouts f) 0 (f_stopped f) (f_hasError f) PhInterest,
   [FoInterest]).

(** data-fetcher.cpp L36-65 and default member initializers data-fetcher.hpp L124-130 *)
Definition f_start : fetcher * list fobs :=
  f_expressInterest (Fetcher 0 0 0 false false PhNone).

(** data-fetcher.cpp L67-75 *)
Definition f_cancel (f : fetcher) : fetcher :=
  if f_isRunning f
  then Fetcher (f_nNacks f) (f_nTimeouts f) (f_nCong f) true (f_hasError f) PhNone
  else f.

Definition f_setError (f : fetcher) : fetcher :=
  Fetcher (f_nNacks f) (f_nTimeouts f) (f_nCong f) (f_stopped f) true (f_phase f).

(** data-fetcher.cpp L87-96 *)
Definition f_handleData (f : fetcher) : fetcher * list fobs :=
  if negb (f_isRunning f) then (f, [])
  else (Fetcher (f_nNacks f) (f_nTimeouts f) (f_nCong f) true (f_hasError f) (f_phase f),
        [FoDataCb]).

(** data-fetcher.cpp L121-133: the CONGESTION case.  [std::pow(2, n)] with
    n <= 14 is exact, so integer powers are used. *)
Definition f_congestion (f : fetcher) : fetcher * list fobs :=
  let backoff := 2 ^ f_nCong f in
  if MAX_CONGESTION_BACKOFF_TIME <? backoff
  then (f_setPhase PhTimer f, [FoBackoff MAX_CONGESTION_BACKOFF_TIME])
  else (Fetcher (f_nNacks f) (f_nTimeouts f) (f_nCong f + 1) (f_stopped f) (f_hasError f) PhTimer,
        [FoBackoff backoff]).

(** data-fetcher.cpp L98-149 *)
Definition f_handleNack (c : fconfig) (r : nack_reason) (f : fetcher) : fetcher * list fobs :=
  if negb (f_isRunning f) then (f, [])
  else
    let f := if Z.eqb (fc_maxNack c) MAX_RETRIES_INFINITE then f
             else Fetcher (f_nNacks f + 1) (f_nTimeouts f) (f_nCong f)
                          (f_stopped f) (f_hasError f) (f_phase f) in
    if (f_nNacks f <=? fc_maxNack c) || Z.eqb (fc_maxNack c) MAX_RETRIES_INFINITE
    then match r with
         | NrDuplicate => f_expressInterest f
         | NrCongestion => f_congestion f
         | _ => (f_setError f, [FoFailCb (CNackReason r)])
         end
    else (f_setError f, [FoFailCb CNackLimit]).

(** data-fetcher.cpp L151-174 *)
Definition f_handleTimeout (c : fconfig) (f : fetcher) : fetcher * list fobs :=
  if negb (f_isRunning f) then (f, [])
  else
    let f := if Z.eqb (fc_maxTimeout c) MAX_RETRIES_INFINITE then f
             else Fetcher (f_nNacks f) (f_nTimeouts f + 1) (f_nCong f)
                          (f_stopped f) (f_hasError f) (f_phase f) in
    if (f_nTimeouts f <=? fc_maxTimeout c) || Z.eqb (fc_maxTimeout c) MAX_RETRIES_INFINITE
    then f_expressInterest f
    else (f_setError f, [FoFailCb CTimeoutLimit]).

Definition prepend {A B} (o : list B) (r : A * list B) : A * list B := (fst r, o ++ snd r).

(** One external event.  The Face removes the pending Interest before it calls the
    handler; an event that the Face or the scheduler cannot produce is ignored. *)
Definition f_step (c : fconfig) (f : fetcher) (e : fevent) : fetcher * list fobs :=
  match e, f_phase f with
  | FeData, PhInterest => prepend [FoGotData] (f_handleData (f_setPhase PhNone f))
  | FeNack r, PhInterest => prepend [FoGotNack r] (f_handleNack c r (f_setPhase PhNone f))
  | FeTimeout, PhInterest => prepend [FoGotTimeout] (f_handleTimeout c (f_setPhase PhNone f))
  | FeTimer, PhTimer => f_expressInterest (f_setPhase PhNone f)   (* data-fetcher.cpp L129-131 *)
  | FeCancel, _ => (f_cancel f, [FoGotCancel])
  | _, _ => (f, [])
  end.

(** A whole fetch: start, then any sequence of events; the trace is chronological. *)
Definition f_run1 (c : fconfig) (st : fetcher * list fobs) (e : fevent) : fetcher * list fobs :=
  let '(f', o) := f_step c (fst st) e in (f', snd st ++ o).
Definition f_run (c : fconfig) (es : list fevent) : fetcher * list fobs :=
  fold_left (f_run1 c) es f_start.
