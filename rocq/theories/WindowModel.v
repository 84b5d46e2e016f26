(** Model of the window policies in double arithmetic:
    tools/chunks/catchunks/pipeline-interests-aimd.cpp and pipeline-interests-cubic.cpp.

    The RTT estimator is ndn-cxx code and stays a parameter; so do std::cbrt and
    std::pow(_, 3), whose results the C++ standard does not fix.  Not modelled: the log
    output. *)
From Verif Require Import Base AdaptiveModel Double.
From Flocq Require Import BinarySingleNaN.
Local Open Scope Z_scope.

(** static_cast<int64_t>(m_cwnd), adaptive.cpp L175.  The behaviour is undefined if the
    result does not fit; x86-64 then yields the smallest number, which is what we take. *)
Definition to_int64 (x : f64) : Z :=
  if is_finite x && (Z.abs (Btrunc x) <? 9223372036854775808) then Btrunc x else -9223372036854775808.

(** * AIMD *)

(** options.hpp L51-60 *)
Record aimd_opts := AimdOpts {
  ai_initCwnd : f64; ai_initSsthresh : f64; ai_step : f64; ai_mdCoef : f64; ai_reset : bool
}.
Record window := Window { w_cwnd : f64; w_ssthresh : f64 }.
(** pipeline-interests-adaptive.hpp L192 *)
Definition MIN_SSTHRESH : f64 := f_of_Z 2.

(** pipeline-interests-adaptive.cpp L38-47 *)
Definition aimd_init (o : aimd_opts) : window := Window (ai_initCwnd o) (ai_initSsthresh o).
(** pipeline-interests-aimd.cpp L44-55 *)
Definition aimd_increase (o : aimd_opts) (w : window) : window :=
  if flt (w_cwnd w) (w_ssthresh w) then Window (fadd (w_cwnd w) (ai_step o)) (w_ssthresh w)
  else Window (fadd (w_cwnd w) (fdiv (ai_step o) (ffloor (w_cwnd w)))) (w_ssthresh w).
(** pipeline-interests-aimd.cpp L57-65 *)
Definition aimd_decrease (o : aimd_opts) (w : window) : window :=
  let ssthresh := fmax MIN_SSTHRESH (fmul (w_cwnd w) (ai_mdCoef o)) in
  Window (if ai_reset o then ai_initCwnd o else ssthresh) ssthresh.

Definition aimd_policy {R} (o : aimd_opts) (r0 : R) (rto : R -> Z) (sample : Z -> Z -> R -> R) (backoff : R -> R)
  : policy window R :=
  Policy (aimd_init o) r0 (fun w => to_int64 (w_cwnd w)) (fun _ _ w => aimd_increase o w) (fun _ w => aimd_decrease o w)
         rto sample backoff.

(** * CUBIC *)
Record cubic_opts := CubicOpts {
  cu_initCwnd : f64; cu_initSsthresh : f64; cu_beta : f64; cu_fastConv : bool
}.
(** pipeline-interests-cubic.hpp L52-54; the pipeline is constructed at time 0.
    Simplification: the run starts at time 0 too; the code constructs the pipeline before the
    version discovery, so that [cw_lastDecrease] may be earlier than the start of the run. *)
Record cwindow := CWindow {
  cw_cwnd : f64; cw_ssthresh : f64; cw_wmax : f64; cw_lastWmax : f64; cw_lastDecrease : Z
}.
Definition cubic_init (o : cubic_opts) : cwindow := CWindow (cu_initCwnd o) (cu_initSsthresh o) f0 f0 0.

Section Cubic.
Variable cbrt : f64 -> f64.
Variable pow3 : f64 -> f64.
(** pipeline-interests-cubic.cpp L33: 0.4 *)
Definition CUBIC_C : f64 := fdiv (f_of_Z 4) (f_of_Z 10).
(** L63, L74: a duration in nanoseconds, divided by 1e9 *)
Definition seconds (ns : Z) : f64 := fdiv (f_of_Z ns) (f_of_Z 1000000000).

(** pipeline-interests-cubic.cpp L47-88; [srtt]: the smoothed RTT in nanoseconds *)
Definition cubic_increase (o : cubic_opts) (now srtt : Z) (w : cwindow) : cwindow :=
  if flt (cw_cwnd w) (cw_ssthresh w) then
    CWindow (fadd (cw_cwnd w) (f_of_Z 1)) (cw_ssthresh w) (cw_wmax w) (cw_lastWmax w) (cw_lastDecrease w)
  else
    let wmax := if flt (cw_wmax w) (cu_initCwnd o) then cw_cwnd w else cw_wmax w in
    let t := seconds (now - cw_lastDecrease w) in
    let k := cbrt (fdiv (fmul wmax (fsub (f_of_Z 1) (cu_beta o))) CUBIC_C) in
    let wCubic := fadd (fmul CUBIC_C (pow3 (fsub t k))) wmax in
    let rtt := seconds srtt in
    let wEst := fadd (fmul wmax (cu_beta o))
                     (fmul (fdiv (fmul (f_of_Z 3) (fsub (f_of_Z 1) (cu_beta o))) (fadd (f_of_Z 1) (cu_beta o))) (fdiv t rtt)) in
    let increment := fmax f0 (fsub (fmax wCubic wEst) (cw_cwnd w)) in
    CWindow (fadd (cw_cwnd w) (fdiv increment (cw_cwnd w))) (cw_ssthresh w) wmax (cw_lastWmax w) (cw_lastDecrease w).

(** pipeline-interests-cubic.cpp L90-112 *)
Definition cubic_decrease (o : cubic_opts) (now : Z) (w : cwindow) : cwindow :=
  let wmax := if cu_fastConv o && flt (cw_cwnd w) (cw_lastWmax w)
              then fdiv (fmul (cw_cwnd w) (fadd (f_of_Z 1) (cu_beta o))) (f_of_Z 2)
              else cw_cwnd w in
  let ssthresh := fmax (cu_initCwnd o) (fmul (cw_cwnd w) (cu_beta o)) in
  CWindow ssthresh ssthresh wmax (cw_cwnd w) now.

Definition cubic_policy {R} (o : cubic_opts) (r0 : R) (srtt : R -> Z) (rto : R -> Z) (sample : Z -> Z -> R -> R) (backoff : R -> R)
  : policy cwindow R :=
  Policy (cubic_init o) r0 (fun w => to_int64 (cw_cwnd w)) (fun now r w => cubic_increase o now (srtt r) w)
         (fun now w => cubic_decrease o now w) rto sample backoff.
End Cubic.

(** * Sequences of window changes outside of a pipeline *)
Inductive wop := Increase (now srtt : Z) | Decrease (now : Z).
Definition aimd_run (o : aimd_opts) (ops : list wop) : window :=
  fold_left (fun w op => match op with Increase _ _ => aimd_increase o w | Decrease _ => aimd_decrease o w end) ops (aimd_init o).
Definition cubic_run cbrt pow3 (o : cubic_opts) (ops : list wop) : cwindow :=
  fold_left (fun w op => match op with Increase t r => cubic_increase cbrt pow3 o t r w | Decrease t => cubic_decrease o t w end) ops (cubic_init o).
