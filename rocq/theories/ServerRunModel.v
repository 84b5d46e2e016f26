(** ndnpingserver as a program: tools/ping/server/main.cpp with ping-server.cpp and tracer.cpp;
    everything it sends and prints, and its exit status.

    Environment: as in ServeModel.v; the command line has been parsed (Boost.Program_options); the
    text forms of names, components, exceptions and points in time and the usage text are
    arbitrary.  An exception may leave Face::processEvents at any time.
    Simplification: the prefix counts as unregistered as soon as stop() is called; the answer to
    the command that is sent for this is not awaited. *)
From Verif Require Import Base TlvModel PingModel PeekModel PeekPokeModel PutchunksModel DumpModel PeekRunModel.
From Coq Require Import String List.
Import ListNotations.
Local Open Scope Z_scope.
Local Open Scope list_scope.

(** server/main.cpp L102-136: the parsed options; [va_prefix] is empty if it is not given *)
Record server_args := ServerArgs {
  va_help : bool; va_version : bool; va_prefix : text; va_fresh : Z; va_max : Z; va_size : Z; va_timestamp : bool; va_quiet : bool
}.
(** [VAborted]: an exception that nobody catches; there is no claim about the texts then, they
    are left empty *)
Inductive server_end := VRunning | VExited (status : Z) | VAborted.
Record server_result := ServerResult { vo_sent : list (Z * packet); vo_stdout : text; vo_stderr : text; vo_end : server_end }.
(** what happens: an Interest arrives, SIGINT, the answer to the registration, an exception *)
Inductive server_happens := VInterest (i : interest) | VInterrupt | VRegSuccess | VRegFailure (reason : text) | VFails (what : text).

Section Server.
Variable sign : packet -> list N * list N.
Variable parse_name : text -> option name.    (* the constructor of Name; None: an exception *)
Variable name_uri : name -> text.
Variable comp_uri : component -> text.
Variable usage version : text.                (* L89-97, L158 *)
Variable stamp : Z -> text.                   (* toIsoString of the time at that moment *)
(** the constructors of Face, KeyChain and PingServer throw, the latter if there is no memory for
    a payload of that size *)
Variable start_error : Z -> bool.
Variable put_error : text.                    (* the exception of Face::put for a packet that is too long *)

(** [vr_waiting]: the answer to the registration of the prefix is awaited; [vr_failed]: the
    exception that has left processEvents, main.cpp L68-71 *)
Record server_running := ServerRunning {
  vr_server : server; vr_waiting : bool; vr_sent : list (Z * packet); vr_out : text; vr_failed : option text
}.
(** tracer.cpp L30-37 *)
Definition vr_line (a : server_args) (t : Z) (i : interest) : text :=
  if va_quiet a then []
  else (if va_timestamp a then stamp t ++ str " - " else []) ++
       str "interest received: seq=" ++ match last_comp (i_name i) with Some c => comp_uri c | None => [] end ++ nl.
(** ping-server.cpp L62-77 *)
Definition vr_interest (o : sopts) (a : server_args) (t : Z) (r : server_running) (i : interest) : server_running :=
  let out := vr_out r ++ vr_line a t i in
  if data_fits sign (pong o i)
  then ServerRunning (onInterest o (vr_server r) i) (vr_waiting r) (vr_sent r ++ [(t, pong o i)]) out None
  else ServerRunning (vr_server r) (vr_waiting r) (vr_sent r) out (Some put_error).
(** server/main.cpp L67: processEvents returns, because nothing is left to wait for *)
Definition vr_ended (r : server_running) : bool := negb (s_active (vr_server r)) && negb (vr_waiting r).
(** server/main.cpp L49-60, ping-server.cpp L40-54 *)
Definition vr_step (o : sopts) (a : server_args) (r : server_running) (e : Z * server_happens) : server_running :=
  match vr_failed r with
  | Some _ => r
  | None =>
      if vr_ended r then r
      else match snd e with
           | VInterest i =>
               if s_active (vr_server r) && is_prefix_of (s_prefix o ++ [ping_comp]) (i_name i) then vr_interest o a (fst e) r i else r
           | VInterrupt => ServerRunning (s_step o (vr_server r) SeInterrupt) (vr_waiting r) (vr_sent r) (vr_out r) None
           | VRegSuccess => ServerRunning (vr_server r) false (vr_sent r) (vr_out r) None
           | VRegFailure reason =>
               if vr_waiting r
               then ServerRunning (vr_server r) false (vr_sent r) (vr_out r) (Some (str "Failed to register prefix: " ++ reason))
               else r
           | VFails what => ServerRunning (vr_server r) (vr_waiting r) (vr_sent r) (vr_out r) (Some what)
           end
  end.
(** server/main.cpp L68-76 *)
Definition vr_result (u : text) (r : server_running) : server_result :=
  match vr_failed r with
  | Some what => ServerResult (vr_sent r) (vr_out r) (str "ERROR: " ++ what ++ nl) (VExited 1)
  | None =>
      if vr_ended r
      then ServerResult (vr_sent r)
             (vr_out r ++ nl ++ str "--- " ++ u ++ str " ping server statistics ---" ++ nl ++
              to_string (s_nPings (vr_server r)) ++ str " packets processed" ++ nl) [] (VExited 0)
      else ServerResult (vr_sent r) (vr_out r) [] VRunning
  end.
(** server/main.cpp L44-67; ping-server.cpp L30-47 *)
Definition server_go (a : server_args) (n : name) (es : list (Z * server_happens)) : server_result :=
  let o := SOpts n (va_fresh a) (Z.to_N (va_max a)) (Z.to_nat (va_size a)) in
  if start_error (va_size a) then ServerResult [] [] [] VAborted
  else vr_result (name_uri n)
         (fold_left (vr_step o a) es (ServerRunning (Server 0 true []) true [] (str "PING SERVER " ++ name_uri n ++ nl) None)).

(** server/main.cpp L99-188; [inl]: the text of a po::error or of bad_any_cast *)
Definition server_program (cmd : text + server_args) (es : list (Z * server_happens)) : server_result :=
  let bad msg := ServerResult [] [] (str "ERROR: " ++ msg ++ nl) (VExited 2) in
  let bad_usage msg := ServerResult [] [] (str "ERROR: " ++ msg ++ nl ++ nl ++ usage) (VExited 2) in
  match cmd with
  | inl what => bad_usage what                                                          (* L141-150 *)
  | inr a =>
      if va_help a then ServerResult [] usage [] (VExited 0)                            (* L152-155 *)
      else if va_version a then ServerResult [] version [] (VExited 0)                  (* L157-160 *)
      else match va_prefix a with
           | [] => bad_usage (str "no name prefix specified")                           (* L162-166 *)
           | p =>
               match parse_name p with
               | None => ServerResult [] [] [] VAborted                                 (* L167 *)
               | Some n =>
                   if va_fresh a <? 0 then bad (str "FreshnessPeriod cannot be negative")    (* L169-173 *)
                   else if va_max a <? 0 then bad (str "maximum number of pings to satisfy cannot be negative")   (* L175-178 *)
                   else if va_size a <? 0 then bad (str "payload size cannot be negative")   (* L181-184 *)
                   else server_go a n es
               end
           end
  end.
End Server.
