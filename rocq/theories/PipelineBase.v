(** Model of tools/chunks/catchunks/pipeline-interests.{hpp,cpp}: the part common to
    all pipelines, and the observable trace of a pipeline run.

    Segment numbers and counters are unbounded ([N], [Z]); the code uses 64-bit
    integers, which a run cannot exhaust.  Not modelled: the name prefix (all
    Interests of a run share it, see ProducerModel for names), verbose messages,
    start time, throughput (see ThroughputModel). *)
From Verif Require Import Base.

(** Failure messages passed to the failure callback:
    [RNoFinal] pipeline-interests-fixed.cpp L73,L189, pipeline-interests-adaptive.cpp L379;
    [RSegment] fixed L149; [RFetch] fixed L96-101 (the fetcher's message for this segment);
    [RMaxRetries] adaptive L133-135; [RNack] adaptive L316-317. *)
Inductive freason :=
| RNoFinal
| RSegment (seg : N)
| RFetch (seg : N)
| RMaxRetries (seg : N)
| RNack (seg : N) (r : nack_reason).

(** Observable trace of a pipeline.  Inputs from the Face and the user ([OGot...]),
    outputs, and two kinds of abnormal events: a violated BOOST_ASSERT and an
    exception that leaves the event loop. *)
Inductive pobs :=
| OGotData (seg : N) (d : data)
| OGotNack (seg : N) (r : nack_reason)
| OGotExpiry (seg : N)                 (* Interest lifetime expired *)
| OGotCancel
| OInterest (seg : N) (retx : bool)    (* an Interest is sent *)
| ODeliver (seg : N) (d : data)        (* the data callback is invoked *)
| OFail (r : freason)                  (* the failure callback is posted *)
| ODone                                (* "All segments have been received" *)
| ORto (seg : N)                       (* retransmission timer expired (verbose counter) *)
| ODecrLoss (seg : N)                  (* window decreased because of a loss event *)
| ODecrMark (seg : N)                  (* window decreased because of a congestion mark *)
| OWindow (w : Z)                      (* afterCwndChange: floor of the new window *)
| OAbandon (seg : N)                   (* a segment is no longer tracked: its Interest, if any, is withdrawn *)
| OSkip (seg : N)                      (* queued retransmission found unnecessary *)
| ORttSample (seg : N) (rtt : Z) (nExpected : Z)
| OBackoff (seg : N) (ms : Z)          (* a retry for the segment is scheduled after that delay *)
| OAssert                              (* a BOOST_ASSERT is violated *)
| OThrow.                              (* an uncaught exception ends the program *)

(** pipeline-interests.hpp, members m_hasFinalBlockId, m_lastSegmentNo, m_nReceived,
    m_receivedSize, m_nextSegmentNo, m_isStopping *)
Record pbase := PBase {
  b_hasFbi    : bool;
  b_last      : N;
  b_nReceived : Z;
  b_recvSize  : Z;
  b_next      : N;
  b_stopping  : bool
}.

Definition b_init : pbase := PBase false 0 0 0 0 false.

Definition b_setFbi (n : N) (b : pbase) : pbase :=
  PBase true n (b_nReceived b) (b_recvSize b) (b_next b) (b_stopping b).
Definition b_setStopping (b : pbase) : pbase :=
  PBase (b_hasFbi b) (b_last b) (b_nReceived b) (b_recvSize b) (b_next b) true.
(** pipeline-interests.cpp L84-88 *)
Definition b_getNext (b : pbase) : N * pbase :=
  (b_next b, PBase (b_hasFbi b) (b_last b) (b_nReceived b) (b_recvSize b) (b_next b + 1)%N (b_stopping b)).
(** pipeline-interests.cpp L93-94 *)
Definition b_received (d : data) (b : pbase) : pbase :=
  PBase (b_hasFbi b) (b_last b) (b_nReceived b + 1)
        (b_recvSize b + Z.of_nat (length (d_content d))) (b_next b) (b_stopping b).
(** pipeline-interests.cpp L76-82; the cast to uint64_t is harmless because of the
    first conjunct *)
Definition b_allReceived (b : pbase) : bool :=
  (0 <? b_nReceived b) && b_hasFbi b && (Z.of_N (b_last b) <=? b_nReceived b - 1).
