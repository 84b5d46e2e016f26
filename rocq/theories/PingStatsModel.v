(** Model of tools/ping/client/statistics-collector.{hpp,cpp} in double arithmetic.

    The counters are integers here; PropsPing shows that they do not exceed the number of
    pings.  The text that is printed is in PingTextModel.v. *)
From Verif Require Import Base TlvModel PingModel Double.
Local Open Scope Z_scope.

(** statistics-collector.hpp L92-99 *)
Record stats := Stats {
  st_count : counters; st_min : f64; st_max : f64; st_sum : f64; st_sumSq : f64
}.
Definition stats_init : stats := Stats (Counters 0 0 0) DBL_MAX f0 f0 f0.

(** ping.cpp L84, ping.hpp L35: the conversion of steady_clock's nanoseconds to
    duration<double, milli> divides by 1000000 *)
Definition rtt_ms (ns : N) : f64 := fdiv (f_of_Z (Z.of_N ns)) (f_of_Z 1000000).

(** statistics-collector.cpp L30-65 *)
Definition record (s : stats) (x : gobs) : stats :=
  let n := count_obs (st_count s) x in
  match x with
  | GData _ rtt =>
      let r := rtt_ms rtt in
      Stats n (fmin (st_min s) r) (fmax (st_max s) r) (fadd (st_sum s) r) (fadd (st_sumSq s) (fmul r r))
  | _ => Stats n (st_min s) (st_max s) (st_sum s) (st_sumSq s)
  end.
Definition stats_of (h : list gobs) : stats := fold_left record h stats_init.

(** statistics-collector.cpp L80-87 *)
Definition packetLossRate (s : stats) : f64 :=
  let n := st_count s in
  if 0 <? n_sent n then fdiv (f_of_Z (n_sent n - n_received n - n_nacked n)) (f_of_Z (n_sent n)) else fnan.
Definition packetNackedRate (s : stats) : f64 :=
  let n := st_count s in
  if 0 <? n_sent n then fdiv (f_of_Z (n_nacked n)) (f_of_Z (n_sent n)) else fnan.
(** statistics-collector.cpp L91-98 *)
Definition avgRtt (s : stats) : f64 :=
  if 0 <? n_received (st_count s) then fdiv (st_sum s) (f_of_Z (n_received (st_count s))) else fnan.
Definition stdDevRtt (s : stats) : f64 :=
  if 0 <? n_received (st_count s) then
    fsqrt (fsub (fdiv (st_sumSq s) (f_of_Z (n_received (st_count s)))) (fmul (avgRtt s) (avgRtt s)))
  else fnan.
