(** Model of ndndump as a program: NdnDump::run (tools/dump/ndndump.cpp L97-178), the main
    function (tools/dump/main.cpp) and the default capture filter (ndndump.hpp L63-67).

    libpcap is the environment, a value of type [pcap]: the list of interfaces, the result of
    opening an interface or a file, the compiler of filter expressions, and the packets that
    arrive.  What libpcap makes of the default filter expression is [bpf_default], written
    from pcap-filter(7) and the code generator of libpcap (gencode.c); it is part of the
    trusted base, nothing of it is in /repo.
    Output is a list of lines per stream; the interleaving of stdout and stderr is not
    modelled, nor is a failure of writing. *)
From Verif Require Import Base TlvModel PingModel DumpModel.
From Coq Require Import String List.
Import ListNotations.
Local Open Scope nat_scope.
Local Open Scope list_scope.

(** * libpcap *)
(** pcap_pkthdr and the captured bytes *)
Record packet := Packet { p_cap : list N; p_len : nat; p_sec : N; p_usec : N }.
(** pcap_datalink, pcap_datalink_val_to_name and ..._to_description: the link type if it is
    one of the three of L144-146, its number in decimal, name and description *)
Record datalink := Datalink {
  d_link   : option link_type;
  d_number : text;
  d_name   : option text;
  d_desc   : option text
}.
Inductive compiled :=
| CompileError (what : text)                 (* pcap_compile returns -1 *)
| SetError (what : text)                     (* pcap_setfilter returns -1 *)
| Selects (f : packet -> bool).
(** how pcap_loop ends after the packets that have arrived: at the end of the file, with an
    error, or not at all (a live capture, until the process is killed) *)
Inductive loop_end := EndOfFile | LoopError (what : text) | StillRunning.
Record capture := Capture {
  c_datalink : datalink;
  c_compile  : text -> compiled;
  c_packets  : list packet;                  (* before filtering *)
  c_end      : loop_end
}.
Record pcap := Pcap {
  pc_devices : text + list text;             (* pcap_findalldevs: error or names *)
  pc_live    : text -> bool -> text + capture;   (* pcap_open_live: interface, promiscuous *)
  pc_file    : text -> text + capture        (* pcap_open_offline *)
}.

(** ndndump.hpp L63-67 *)
Definition getDefaultPcapFilter : text :=
  str "(ether proto 0x8624) or (tcp port 6363) or (udp port 6363) or (udp port 56363)".

(** * NdnDump *)
(** ndndump.hpp L107-113 *)
Record settings := Settings {
  s_interface : text;
  s_file      : text;
  s_pcap      : text;
  s_filter    : option (text -> bool);
  s_promisc   : bool;
  s_timestamp : bool;
  s_verbose   : bool
}.

(** how run ends: it returns, throws, has not ended, or has undefined behaviour *)
Inductive ending := Returned | Threw (what : text) | Unfinished | Undefined.
Record output := Output { out_stdout : list text; out_stderr : list text }.
Definition add (a b : output) : output :=
  Output (out_stdout a ++ out_stdout b) (out_stderr a ++ out_stderr b).
Definition silent : output := Output [] [].

Definition is_empty (t : text) : bool := match t with [] => true | _ => false end.

(** ndndump.cpp L134-139 *)
Definition formattedDlt (d : datalink) : text :=
  match d_name d with Some n => n | None => d_number d end ++
  match d_desc d with Some x => str " (" ++ x ++ str ")" | None => [] end.

Section Run.
Variable E : env.
Variable P : pcap.

(** ndndump.cpp L171-175: pcap_loop calls printPacket for every packet that passes the
    filter *)
Fixpoint pcap_loop (o : dump_opts) (passes : packet -> bool) (ps : list packet) : outcome (list text) :=
  match ps with
  | [] => Fine []
  | p :: ps =>
      if passes p then
        l <- printPacket E o (p_cap p) (p_len p) (p_sec p) (p_usec p) ;;
        ls <- pcap_loop o passes ps ;;
        Fine (match l with Some l => l :: ls | None => ls end)
      else pcap_loop o passes ps
  end.

(** ndndump.cpp L171-177 *)
Definition run_loop (o : dump_opts) (passes : packet -> bool) (c : capture) : output * ending :=
  match pcap_loop o passes (c_packets c) with
  | Fine ls =>
      (Output ls [], match c_end c with
                     | EndOfFile => Returned
                     | LoopError e => Threw (str "pcap_loop: " ++ e)
                     | StillRunning => Unfinished
                     end)
  | _ => (silent, Undefined)
  end.

(** ndndump.cpp L153-169 *)
Definition run_filter (s : settings) (o : dump_opts) (c : capture) : output * ending :=
  if is_empty (s_pcap s) then run_loop o (fun _ => true) c
  else
    let v := if s_verbose s then Output [] [str "ndndump: using pcap filter: " ++ s_pcap s] else silent in
    match c_compile c (s_pcap s) with
    | CompileError e => (v, Threw (str "Cannot compile pcap filter '" ++ s_pcap s ++ str "': " ++ e))
    | SetError e => (v, Threw (str "Cannot set pcap filter: " ++ e))
    | Selects f => let '(out, e) := run_loop o f c in (add v out, e)
    end.

(** ndndump.cpp L133-151 *)
Definition run_capture (s : settings) (action : text) (c : capture) : output * ending :=
  let dlt := formattedDlt (c_datalink c) in
  let v := Output [] [str "ndndump: " ++ action ++ str ", link-type " ++ dlt] in
  match d_link (c_datalink c) with
  | None => (v, Threw (str "Unsupported link-layer header type " ++ dlt))
  | Some l =>
      let '(out, e) := run_filter s (DumpOpts l (s_filter s) (s_timestamp s)) c in (add v out, e)
  end.

(** ndndump.cpp L117-131 *)
Definition run_open (s : settings) (interface : text) : output * ending :=
  if negb (is_empty interface) then
    match pc_live P interface (s_promisc s) with
    | inl e => (silent, Threw (str "Cannot open interface " ++ interface ++ str ": " ++ e))
    | inr c => run_capture s (str "listening on " ++ interface) c
    end
  else
    match pc_file P (s_file s) with
    | inl e => (silent, Threw (str "Cannot open file '" ++ s_file s ++ str "' for reading: " ++ e))
    | inr c => run_capture s (str "reading from file " ++ s_file s) c
    end.

(** ndndump.cpp L97-178 *)
Definition run (s : settings) : output * ending :=
  if is_empty (s_file s) && is_empty (s_interface s) then                  (* L102-115 *)
    match pc_devices P with
    | inl e => (silent, Threw e)
    | inr [] => (silent, Threw (str "No network interface found"))
    | inr (d :: _) => run_open s d
    end
  else run_open s (s_interface s).

(** * main *)
(** main.cpp L49-82: the result of parsing the command line (Boost.Program_options) *)
Record arguments := Arguments {
  a_help : bool;
  a_version : bool;
  a_interface : option text;
  a_read : option text;
  a_filter : option text;
  a_no_promiscuous : bool;
  a_no_timestamp : bool;
  a_verbose : bool;
  a_pcap : list text                        (* positional arguments *)
}.
Variable usage : list text.                 (* L35-46, lines *)
Variable version : list text.               (* L105-106: ndndump and libpcap version, lines *)
(** std::regex: error, or whether it matches a URI *)
Variable regex : text -> text + (text -> bool).

(** main.cpp L126-130, ndn::make_ostream_joiner *)
Fixpoint join_args (l : list text) : text :=
  match l with
  | [] => []
  | [x] => x
  | x :: l => x ++ str " " ++ join_args l
  end.

(** The status; None: the process has not ended.  [Crash]: undefined behaviour *)
Inductive status := Ended (code : N) | Running | Crash.

(** main.cpp L135-142 *)
Definition main_run (s : settings) : output * status :=
  let '(out, e) := run s in
  match e with
  | Returned => (out, Ended 0)
  | Threw e => (add out (Output [] [str "ERROR: " ++ e]), Ended 1)
  | Unfinished => (out, Running)
  | Undefined => (out, Crash)
  end.

(** main.cpp L47-143; [inl]: the message of the exception of Boost.Program_options *)
Definition dump_program (cmd : text + arguments) : output * status :=
  match cmd with
  | inl e => (Output [] ((str "ERROR: " ++ e) :: [] :: usage), Ended 2)    (* L88-97 *)
  | inr a =>
      if a_help a then (Output usage [], Ended 0)                          (* L99-102 *)
      else if a_version a then (Output version [], Ended 0)                (* L104-108 *)
      else
        match a_interface a, a_read a with
        | Some _, Some _ =>                                                (* L110-114 *)
            (Output [] (str "ERROR: conflicting '--interface' and '--read' options specified" :: [] :: usage), Ended 2)
        | _, _ =>
            let go f :=
              main_run (Settings
                (match a_interface a with Some i => i | None => [] end)
                (match a_read a with Some r => r | None => [] end)
                (match a_pcap a with [] => getDefaultPcapFilter | l => join_args l end)   (* L126-130 *)
                f
                (negb (a_no_promiscuous a)) (negb (a_no_timestamp a))      (* L132-133 *)
                (a_verbose a)) in
            match a_filter a with                                          (* L116-124 *)
            | None => go None
            | Some r =>
                match regex r with
                | inl e => (Output [] [str "ERROR: invalid filter regex: " ++ e], Ended 2)
                | inr f => go (Some f)
                end
            end
        end
  end.
End Run.

(** * What libpcap makes of the default filter *)
(** The filter program reads the captured bytes; a read outside of them ends the program and
    rejects the packet: None *)
Section Bpf.
Variable cap : list N.
Definition ld8 (k : nat) : option N := nth_error cap k.
Definition ld16 (k : nat) : option N :=
  match nth_error cap k, nth_error cap (k + 1) with
  | Some a, Some b => Some (a * 256 + b)%N
  | _, _ => None
  end.
Definition is (x : option N) (v : N) : option bool := option_map (fun y => (y =? v)%N) x.
Definition and_ (a b : option bool) : option bool := match a with Some true => b | _ => a end.
Definition or_ (a b : option bool) : option bool := match a with Some false => b | _ => a end.

(** position of the protocol field and of the payload (gencode.c, init_linktype) *)
Definition off_type (l : link_type) : nat := match l with DltEther => 12 | DltSll => 14 | DltPpp => 2 end.
Definition off_payload (l : link_type) : nat := match l with DltEther => 14 | DltSll => 16 | DltPpp => 4 end.
(** gen_linktype; on PPP links the Ethernet types of IPv4 and IPv6 are translated, others
    are compared with the protocol field as they are *)
Definition ether_proto (l : link_type) (t : N) : option bool :=
  is (ld16 (off_type l))
     (match l with
      | DltPpp => if (t =? 2048)%N then 33 else if (t =? 34525)%N then 87 else t
      | _ => t
      end%N).
(** gen_port: IPv4, the protocol, not a later fragment, source or destination port *)
Definition ip4_port (l : link_type) (proto port : N) : option bool :=
  let ip := off_payload l in
  and_ (ether_proto l 2048)
    (and_ (is (ld8 (ip + 9)) proto)
      (and_ (is (option_map (fun x => (x mod 8192)%N) (ld16 (ip + 6))) 0)
        (match ld8 ip with
         | None => None
         | Some h =>
             let t := ip + 4 * N.to_nat (h mod 16) in
             or_ (is (ld16 t) port) (is (ld16 (t + 2)) port)
         end))).
(** gen_port6 *)
Definition ip6_port (l : link_type) (proto port : N) : option bool :=
  let ip := off_payload l in
  and_ (ether_proto l 34525)
    (and_ (is (ld8 (ip + 6)) proto)
      (or_ (is (ld16 (ip + 40)) port) (is (ld16 (ip + 42)) port))).
Definition proto_port (l : link_type) (proto port : N) : option bool :=
  or_ (ip4_port l proto port) (ip6_port l proto port).
(** (ether proto 0x8624) or (tcp port 6363) or (udp port 6363) or (udp port 56363) *)
Definition bpf_default (l : link_type) : bool :=
  match or_ (ether_proto l 34340)
          (or_ (proto_port l 6 6363) (or_ (proto_port l 17 6363) (proto_port l 17 56363))) with
  | Some b => b
  | None => false
  end.
End Bpf.
