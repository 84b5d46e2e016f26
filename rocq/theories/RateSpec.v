(** What the congestion windows should do, in terms of the changes so far. *)
From Verif Require Import Base PipelineBase Double WindowModel.
From Coq Require Import Reals.
From Flocq Require Import Core BinarySingleNaN.
Local Open Scope R_scope.

Definition no_decrease (ops : list wop) : Prop := forall t, ~ In (Decrease t) ops.

(** The result of arithmetic on doubles is the double nearest to the exact result, to the one
    with an even significand if there are two. *)
Definition nearest (x : R) : R := round radix2 (SpecFloat.fexp 53 1024) ZnearestE x.

(** AIMD: one more [step] per acknowledgment ... *)
Definition exponential_growth (step c c' : R) : Prop := c' = nearest (c + step).
(** ... or one more [step] per window of acknowledgments. *)
Definition linear_growth (step c c' : R) : Prop := c' = nearest (c + nearest (step / IZR (Zfloor c))).

(** What a pipeline reports about arriving Data, deliveries to the consumer and changes of the
    window. *)
Definition window_event (x : pobs) : bool :=
  match x with OGotData _ _ | ODeliver _ _ | ODecrLoss _ | ODecrMark _ | OWindow _ => true | _ => false end.

(** [window_log ign size h ops]: these events belong to the changes [ops].  [size]: the
    number of Interests allowed after a sequence of changes; [ign]: congestion marks are to be
    ignored. *)
Inductive window_log (ign : bool) (size : list wop -> Z) : list pobs -> list wop -> Prop :=
| log_none : window_log ign size [] []
  (* a packet that is not delivered changes nothing *)
| log_dropped h ops seg d : window_log ign size h ops -> window_log ign size (h ++ [OGotData seg d]) ops
  (* a delivered one without a mark raises the window *)
| log_up h ops seg d t r : window_log ign size h ops -> d_mark d = false \/ ign = true ->
    window_log ign size (h ++ [OGotData seg d; OWindow (size (ops ++ [Increase t r])); ODeliver seg d]) (ops ++ [Increase t r])
  (* one with a mark lowers it, or does nothing *)
| log_mark h ops seg d t : window_log ign size h ops -> d_mark d = true -> ign = false ->
    window_log ign size (h ++ [OGotData seg d; ODecrMark seg; OWindow (size (ops ++ [Decrease t])); ODeliver seg d]) (ops ++ [Decrease t])
| log_mark_again h ops seg d : window_log ign size h ops -> d_mark d = true -> ign = false ->
    window_log ign size (h ++ [OGotData seg d; ODeliver seg d]) ops
  (* a loss lowers it *)
| log_loss h ops seg t : window_log ign size h ops ->
    window_log ign size (h ++ [OWindow (size (ops ++ [Decrease t])); ODecrLoss seg]) (ops ++ [Decrease t]).

(** * CUBIC, following RFC 8312 *)
Section Rfc8312.
Variable cbrt pow3 : f64 -> f64.
Variable beta : f64.
Let one := f_of_Z 1.
(** the constant C = 0.4 *)
Let C := fdiv (f_of_Z 4) (f_of_Z 10).
(** section 4.1: the window [t] seconds after the last reduction; K is the time at which it
    reaches W_max again *)
Definition W_cubic (W_max t : f64) : f64 :=
  let K := cbrt (fdiv (fmul W_max (fsub one beta)) C) in fadd (fmul C (pow3 (fsub t K))) W_max.
(** section 4.2: the window that standard TCP would have *)
Definition W_est (W_max t rtt : f64) : f64 :=
  fadd (fmul W_max beta) (fmul (fdiv (fmul (f_of_Z 3) (fsub one beta)) (fadd one beta)) (fdiv t rtt)).
(** section 4.6: W_max after a reduction from the window [w]; [before]: the window from which
    the reduction before was made, 0 if there was none *)
Definition W_max (fast : bool) (w before : f64) : f64 :=
  if fast && flt w before then fdiv (fmul w (fadd one beta)) (f_of_Z 2) else w.
End Rfc8312.
(** nanoseconds as a number of seconds *)
Definition in_seconds (ns : Z) : f64 := fdiv (f_of_Z ns) (f_of_Z 1000000000).

(** the window from which the last decrease in [ops] was made, 0 if there is none *)
Definition reduced_before (window : list wop -> f64) (ops : list wop) (x : f64) : Prop :=
  (no_decrease ops /\ x = f0) \/
  exists pre t post, ops = pre ++ Decrease t :: post /\ no_decrease post /\ x = window pre.
