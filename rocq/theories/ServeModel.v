(** The server programs as a whole: ndnpingserver (tools/ping/server/main.cpp, tracer.cpp)
    and ndnputchunks (tools/chunks/putchunks/main.cpp, producer.cpp), with what they print,
    the limit on the size of packets, and their exit status.

    Environment (ndn-cxx): Face::put throws if the packet is longer than MAX_NDN_PACKET_SIZE
    (Face::Impl::finishEncoding), also for a Nack, which contains the Interest; the exception
    leaves the handler and Face::processEvents.  Face::processEvents returns when no Interest
    filter with a registration and no pending command is left, or after Face::shutdown.

    Not modelled here: the options, the time stamps of option -t, the text of exceptions (see
    ServerRunModel.v and PutRunModel.v). *)
From Verif Require Import Base TlvModel PingModel PeekModel PeekPokeModel PutchunksModel DumpModel.
From Coq Require Import String.
From Coq Require Import List.
Import ListNotations.
Local Open Scope list_scope.

Section Serve.
Variable digest : packet -> component.
(** the values of SignatureInfo and SignatureValue *)
Variable sign : packet -> list N * list N.
(** operator<< for names, components, Interests and Data packets *)
Variable name_uri : name -> text.
Variable comp_uri : component -> text.
Variable interest_text : interest -> text.
Variable data_text : packet -> text.

Definition newline : text := [10%N].

(** * ndnpingserver *)

(** [ps_waiting]: the answer to the registration of the prefix is awaited; [ps_failed]: an
    exception has left processEvents, main.cpp L68-71 *)
Record pserver := PServer { ps_server : server; ps_waiting : bool; ps_failed : bool; ps_out : text }.
Inductive psevent := PsInterest (i : interest) | PsInterrupt | PsRegSuccess | PsRegFailure.

(** tracer.cpp L30-37; the filter makes sure that the name is not empty *)
Definition seq_line (quiet : bool) (i : interest) : text :=
  if quiet then []
  else str "interest received: seq=" ++ match last_comp (i_name i) with Some c => comp_uri c | None => [] end ++ newline.

(** ping-server.cpp L62-77: the packet is put before it is counted *)
Definition ps_onInterest (o : sopts) (quiet : bool) (s : pserver) (i : interest) : pserver :=
  let out := ps_out s ++ seq_line quiet i in
  if data_fits sign (pong o i) then PServer (onInterest o (ps_server s) i) (ps_waiting s) false out
  else PServer (ps_server s) (ps_waiting s) true out.

(** main.cpp L41-60, ping-server.cpp L40-54 *)
Definition ps_step (o : sopts) (quiet : bool) (s : pserver) (e : psevent) : pserver :=
  if ps_failed s then s
  else match e with
       | PsInterest i =>
           if s_active (ps_server s) && is_prefix_of (s_prefix o ++ [ping_comp]) (i_name i)
           then ps_onInterest o quiet s i else s
       | PsInterrupt => PServer (s_step o (ps_server s) SeInterrupt) (ps_waiting s) false (ps_out s)
       | PsRegSuccess => PServer (ps_server s) false false (ps_out s)
       | PsRegFailure => if ps_waiting s then PServer (ps_server s) false true (ps_out s) else s
       end.
(** main.cpp L62-67 *)
Definition ps_start (o : sopts) : pserver :=
  PServer (Server 0 true []) true false (str "PING SERVER " ++ name_uri (s_prefix o) ++ newline).
Definition ps_run (o : sopts) (quiet : bool) (es : list psevent) : pserver := fold_left (ps_step o quiet) es (ps_start o).

(** the exit status, main.cpp L66-76; [None]: still running *)
Definition ps_status (s : pserver) : option Z :=
  if ps_failed s then Some 1%Z
  else if s_active (ps_server s) || ps_waiting s then None else Some 0%Z.
(** main.cpp L73-75 *)
Definition ps_statistics (o : sopts) (s : pserver) : text :=
  newline ++ str "--- " ++ name_uri (s_prefix o) ++ str " ping server statistics ---" ++ newline ++
  to_string (s_nPings (ps_server s)) ++ str " packets processed" ++ newline.
(** the standard output so far *)
Definition ps_stdout (o : sopts) (s : pserver) : text :=
  ps_out s ++ match ps_status s with Some 0%Z => ps_statistics o s | _ => [] end.

(** * ndnputchunks *)

(** producer.hpp L53-60, the options that do not influence the packets *)
Record putopts := PutOpts { pu_quiet : bool; pu_verbose : bool; pu_showVersion : bool }.

(** [cp_status]: the program has ended; [cp_sent]: what was put, in order *)
Record chunkserver := ChunkServer {
  cp_sent : list reply; cp_status : option Z; cp_stdout : text; cp_stderr : text
}.
(** an Interest with the length of its packet and the time it arrives *)
Inductive cpevent := CpInterest (now : N) (wire : nat) (i : interest) | CpRegFailure (reason : text).

(** an lp::Nack without reason: LpPacket with the Nack header and the Interest as fragment *)
Definition TLpPacket : N := 100.
Definition TLpFragment : N := 80.
Definition TLpNack : N := 800.
Definition nack_length (wire : nat) : nat :=
  List.length (tlv TLpPacket (tlv TLpNack [] ++ tlv TLpFragment (repeat 0%N wire))).
Definition reply_fits (wire : nat) (r : reply) : bool :=
  match r with
  | RpData d => data_fits sign d
  | RpNack => Nat.leb (nack_length wire) (8 * 1100)
  end.

(** Face::put of one reply.  The exception ends the program, main.cpp L159-162. *)
Definition cp_put (wire : nat) (s : chunkserver) (r : reply) : chunkserver :=
  match cp_status s with
  | Some _ => s
  | None => if reply_fits wire r then ChunkServer (cp_sent s ++ [r]) None (cp_stdout s) (cp_stderr s)
            else ChunkServer (cp_sent s) (Some 1%Z) (cp_stdout s) (cp_stderr s)
  end.
Definition cp_say (t : text) (s : chunkserver) : chunkserver :=
  match cp_status s with
  | Some _ => s
  | None => ChunkServer (cp_sent s) None (cp_stdout s) (cp_stderr s ++ t)
  end.
(** producer.cpp L98-122, L124-159 with their messages *)
Definition cp_discovery (u : putopts) (cv : convention) (now : N) (p : producer) (wire : nat) (i : interest) (s : chunkserver) : chunkserver :=
  let r := processDiscoveryInterest cv now p i in
  let s := cp_say (if pu_verbose u then str "Discovery Interest: " ++ interest_text i ++ newline else []) s in
  let s := cp_say (if pu_verbose u then match r with
                                         | RpNack => str "Discovery Interest lacks CanBePrefix, sending Nack" ++ newline
                                         | RpData d => str "Sending metadata: " ++ data_text d ++ newline
                                         end else []) s in
  cp_put wire s r.
Definition cp_segment (u : putopts) (p : producer) (wire : nat) (i : interest) (s : chunkserver) : chunkserver :=
  let r := processSegmentInterest digest p i in
  let s := cp_say (if pu_verbose u then str "Interest: " ++ interest_text i ++ newline else []) s in
  let s := cp_say (if pu_verbose u then match r with
                                         | RpNack => str "Interest cannot be satisfied, sending Nack" ++ newline
                                         | RpData d => str "Data: " ++ data_text d ++ newline
                                         end else []) s in
  cp_put wire s r.
(** the Interest filters, producer.cpp L68-81 *)
Definition cp_onInterest (u : putopts) (cv : convention) (now : N) (p : producer) (wire : nat) (i : interest) (s : chunkserver) : chunkserver :=
  let s := if is_prefix_of (pr_vprefix p) (i_name i) then cp_segment u p wire i s else s in
  let s := if name_eqb (i_name i) (pr_prefix p) then cp_segment u p wire i s else s in
  if is_prefix_of (discovery_name (pr_prefix p)) (i_name i) then cp_discovery u cv now p wire i s else s.

(** producer.cpp L61-65: a message, and Face::shutdown, after which processEvents returns;
    main.cpp L153-164 then ends with status 0 *)
Definition cp_step (u : putopts) (cv : convention) (p : producer) (s : chunkserver) (e : cpevent) : chunkserver :=
  match cp_status s with
  | Some _ => s
  | None =>
      match e with
      | CpInterest now wire i => cp_onInterest u cv now p wire i s
      | CpRegFailure reason =>
          ChunkServer (cp_sent s) (Some 0%Z) (cp_stdout s)
            (cp_stderr s ++ str "ERROR: Failed to register prefix '" ++ name_uri (pr_prefix p) ++ str "' (" ++ reason ++ str ")" ++ newline)
      end
  end.
(** producer.cpp L55-57, L83-90 *)
Definition cp_start (u : putopts) (p : producer) : chunkserver :=
  let n := List.length (pr_store p) in
  ChunkServer [] None
    (if pu_showVersion u then match last_comp (pr_vprefix p) with Some c => comp_uri c | None => [] end ++ newline else [])
    (if pu_quiet u then []
     else str "Loading input ..." ++ newline ++
          str "Published " ++ to_string (N.of_nat n) ++ str " Data packet" ++ (if Nat.ltb 1 n then str "s" else []) ++
          str " with prefix " ++ name_uri (pr_vprefix p) ++ newline).
Definition cp_run (u : putopts) (cv : convention) (p : producer) (es : list cpevent) : chunkserver :=
  fold_left (cp_step u cv p) es (cp_start u p).
End Serve.
