(** Model of tools/ping/client/ping.{hpp,cpp}, client/main.cpp (class Runner) and
    tools/ping/server/ping-server.{hpp,cpp}.

    Environment: the Face calls exactly one of the three callbacks of an Interest, at most
    once, and never during expressInterest.  A cancelled timer does not fire.  Not modelled:
    the messages of the server's Tracer (those of the client are in PingTextModel.v), signatures, the limit on the size of a packet, and
    the width of the [int] counters (the number of pings is assumed to stay below 2^31; see
    the theorem about the range of the counters). *)
From Verif Require Import Base TlvModel.
Local Open Scope Z_scope.

(** * Decimal numbers: std::to_string(uint64_t) *)
Fixpoint dec_aux (fuel : nat) (n : N) (acc : list N) : list N :=
  match fuel with
  | O => acc
  | S fuel' =>
      let acc' := (48 + n mod 10)%N :: acc in
      if (n <? 10)%N then acc' else dec_aux fuel' (n / 10)%N acc'
  end.
(** a number below 2^64 has at most 20 digits *)
Definition to_string (n : N) : list N := dec_aux 20 n [].

(** * The client *)

(** client/ping.hpp L40-51 *)
Record gopts := GOpts {
  g_prefix   : name;
  g_stale    : bool;       (* shouldAllowStaleData *)
  g_nPings   : Z;          (* negative: no limit *)
  g_startSeq : N;          (* or the random number, ping.cpp L36-38 *)
  g_id       : list N      (* clientIdentifier, empty if there is none *)
}.

Definition W64 : N := 18446744073709551616.
Definition ping_comp : component := Comp TGeneric [112; 105; 110; 103]%N.

(** ping.cpp L112-122 makePingName *)
Definition makePingName (o : gopts) (seq : N) : name :=
  g_prefix o ++ [ping_comp] ++
  match g_id o with [] => [] | _ => [Comp TGeneric (g_id o)] end ++
  [Comp TGeneric (to_string seq)].

(** ping.cpp L57-59: the Interest for a sequence number *)
Definition ping_interest (o : gopts) (seq : N) : interest :=
  Interest (makePingName o seq) false (negb (g_stale o)).

(** what happens, in chronological order *)
Inductive gobs :=
| GInterest (seq : N)
| GData (seq : N) (rtt : N)          (* signal afterData; RTT in nanoseconds *)
| GNack (seq : N) (rtt : N)          (* signal afterNack *)
| GTimeout (seq : N)                 (* signal afterTimeout *)
| GFinish                            (* signal afterFinish *)
| GAssert.                           (* BOOST_ASSERT fails *)

(** ping.hpp L145-152; [c_pending]: the Interests for which the Face holds callbacks, by the
    captured sequence number; [c_cancelled]: Runner::cancel was called, main.cpp L80-86 *)
Record client := Client {
  c_nSent : Z; c_nextSeq : N; c_nOut : Z; c_timer : bool;
  c_pending : list N; c_cancelled : bool; c_hist : list gobs
}.

Definition c_emit (x : gobs) (s : client) : client :=
  Client (c_nSent s) (c_nextSeq s) (c_nOut s) (c_timer s) (c_pending s) (c_cancelled s) (c_hist s ++ [x]).
(** ping.cpp L47-51 stop, client/main.cpp L80-86 cancel *)
Definition c_cancel (s : client) : client :=
  Client (c_nSent s) (c_nextSeq s) (c_nOut s) false (c_pending s) true (c_hist s).

(** ping.cpp L103-110 finish; afterFinish is connected to Runner::cancel, main.cpp L52 *)
Definition c_finish (s : client) : client :=
  let s1 := Client (c_nSent s) (c_nextSeq s) (c_nOut s - 1) (c_timer s) (c_pending s) (c_cancelled s) (c_hist s) in
  if c_nOut s1 >=? 0 then s1 else c_cancel (c_emit GFinish s1).

(** ping.cpp L53-78 *)
Definition performPing (o : gopts) (s : client) : client :=
  if negb ((g_nPings o <? 0) || (c_nSent s <? g_nPings o)) then c_emit GAssert s         (* L56 *)
  else
    let s1 := Client (c_nSent s + 1) (N.modulo (c_nextSeq s + 1) W64) (c_nOut s + 1) false
                     (c_pending s ++ [c_nextSeq s]) (c_cancelled s) (c_hist s ++ [GInterest (c_nextSeq s)]) in
    if (g_nPings o <? 0) || (c_nSent s1 <? g_nPings o) then                              (* L72 *)
      Client (c_nSent s1) (c_nextSeq s1) (c_nOut s1) true (c_pending s1) (c_cancelled s1) (c_hist s1)
    else c_finish s1.

Inductive gevent :=
| GeTimer                        (* m_nextPingEvent fires *)
| GeData (seq rtt : N) | GeNack (seq rtt : N) | GeTimeout (seq : N)
| GeInterrupt                    (* SIGINT, main.cpp L88-96 *)
| GeQuit.                        (* SIGQUIT: a summary is printed, main.cpp L98-108 *)

Fixpoint remove_first (k : N) (l : list N) : list N :=
  match l with
  | [] => []
  | x :: l' => if N.eqb x k then l' else x :: remove_first k l'
  end.
Definition c_answer (k : N) (x : gobs) (s : client) : client :=
  if existsb (N.eqb k) (c_pending s) then
    c_finish (c_emit x (Client (c_nSent s) (c_nextSeq s) (c_nOut s) (c_timer s)
                               (remove_first k (c_pending s)) (c_cancelled s) (c_hist s)))
  else s.

(** ping.cpp L80-101, client/main.cpp L50-52 *)
Definition g_step (o : gopts) (s : client) (e : gevent) : client :=
  match e with
  | GeTimer => if c_timer s then performPing o s else s
  | GeData k rtt => c_answer k (GData k rtt) s
  | GeNack k rtt => c_answer k (GNack k rtt) s
  | GeTimeout k => c_answer k (GTimeout k) s
  | GeInterrupt => if c_cancelled s then s else c_cancel s
  | GeQuit => s
  end.

(** ping.cpp L41-45 start *)
Definition g_start (o : gopts) : client := performPing o (Client 0 (g_startSeq o) 0 false [] false []).
Definition g_run (o : gopts) (es : list gevent) : client := fold_left (g_step o) es (g_start o).

(** Face::processEvents returns when nothing is left to wait for: no pending Interest, no
    timer, and the signal handlers are cancelled *)
Definition g_ended (s : client) : bool :=
  c_cancelled s && negb (c_timer s) && match c_pending s with [] => true | _ => false end.

(** * The counters of the statistics collector, statistics-collector.cpp L31-65, and the exit
    status, main.cpp L67-75 *)
Record counters := Counters { n_sent : Z; n_received : Z; n_nacked : Z }.
Definition count_obs (n : counters) (x : gobs) : counters :=
  match x with
  | GData _ _ => Counters (n_sent n + 1) (n_received n + 1) (n_nacked n)
  | GNack _ _ => Counters (n_sent n + 1) (n_received n) (n_nacked n + 1)
  | GTimeout _ => Counters (n_sent n + 1) (n_received n) (n_nacked n)
  | _ => n
  end.
Definition counters_of (h : list gobs) : counters := fold_left count_obs h (Counters 0 0 0).
Definition exit_status (h : list gobs) : Z :=
  let n := counters_of h in if n_received n =? n_sent n then 0 else 1.

(** * The server *)

(** server/ping-server.hpp L37-45 *)
Record sopts := SOpts {
  s_prefix : name; s_fresh : Z; s_nMax : N; s_size : nat
}.
Inductive sobs := SAnswer (i : interest) (d : packet) | SFinish.
(** [s_active]: the Interest filter is installed *)
Record server := Server { s_nPings : N; s_active : bool; s_hist : list sobs }.

(** ping-server.cpp L30-38, L67-71; the payload consists of the letter a *)
Definition pong (o : sopts) (i : interest) : packet :=
  Packet (i_name i) (repeat 97%N (s_size o)) None (s_fresh o).
(** ping-server.cpp L62-77 onInterest; afterFinish removes the filter, server/main.cpp L50-53 *)
Definition onInterest (o : sopts) (s : server) (i : interest) : server :=
  let n := (s_nPings s + 1)%N in
  let h := s_hist s ++ [SAnswer i (pong o i)] in
  if (0 <? s_nMax o)%N && (s_nMax o =? n)%N then Server n false (h ++ [SFinish]) else Server n (s_active s) h.

Inductive sevent := SeInterest (i : interest) | SeInterrupt.
(** ping-server.cpp L40-54: the filter; stop() removes it *)
Definition s_step (o : sopts) (s : server) (e : sevent) : server :=
  match e with
  | SeInterest i =>
      if s_active s && is_prefix_of (s_prefix o ++ [ping_comp]) (i_name i) then onInterest o s i else s
  | SeInterrupt => Server (s_nPings s) false (s_hist s)
  end.
Definition s_run (o : sopts) (es : list sevent) : server := fold_left (s_step o) es (Server 0 true []).

(** * Client and server over a network *)
Inductive nevent :=
| NeClient (e : gevent)                (* timers, Nacks, timeouts, signals of the client *)
| NeToServer (k : nat)                 (* a copy of the k-th Interest sent so far reaches the server *)
| NeFromServer (k : nat) (rtt : N).    (* a copy of the k-th Data sent so far reaches the client *)
Record system := System { y_client : client; y_server : server }.

Definition sent_seqs (h : list gobs) : list N := flat_map (fun x => match x with GInterest k => [k] | _ => [] end) h.
Definition answers (h : list sobs) : list packet := flat_map (fun x => match x with SAnswer _ d => [d] | _ => [] end) h.

(** the Face hands Data to every pending Interest that it satisfies *)
Definition satisfied (digest : packet -> component) (o : gopts) (d : packet) (pending : list N) : list N :=
  filter (fun k => matches_data digest (ping_interest o k) d) pending.

Definition y_step (digest : packet -> component) (co : gopts) (so : sopts) (y : system) (e : nevent) : system :=
  match e with
  | NeClient (GeData _ _) => y                              (* Data comes from the server only *)
  | NeClient e => System (g_step co (y_client y) e) (y_server y)
  | NeToServer k =>
      match nth_error (sent_seqs (c_hist (y_client y))) k with
      | Some seq => System (y_client y) (s_step so (y_server y) (SeInterest (ping_interest co seq)))
      | None => y
      end
  | NeFromServer k rtt =>
      match nth_error (answers (s_hist (y_server y))) k with
      | Some d => System (fold_left (fun s seq => g_step co s (GeData seq rtt))
                                    (satisfied digest co d (c_pending (y_client y))) (y_client y)) (y_server y)
      | None => y
      end
  end.
Definition y_run (digest : packet -> component) (co : gopts) (so : sopts) (es : list nevent) : system :=
  fold_left (y_step digest co so) es (System (g_start co) (Server 0 true [])).
