(** What ndndump does as a program, and which packets the default capture filter selects.
    Written from the manual page and the protocol specifications. *)
From Verif Require Import Base TlvModel TlvProofs PingModel DumpModel DumpSpec DumpRunModel.
From Coq Require Import String List.
Import ListNotations.
Local Open Scope nat_scope.
Local Open Scope list_scope.

(** * The program *)
(** an option that is missing or has an empty value *)
Definition absent (o : option text) : Prop := o = None \/ o = Some [].
Definition present (o : option text) (t : text) : Prop := o = Some t /\ t <> [].

(** the words separated by single spaces *)
Inductive spaced : list text -> text -> Prop :=
| Sp_one w : spaced [w] w
| Sp_more w ws t : spaced ws t -> spaced (w :: ws) (w ++ str " " ++ t).

(** the expression of the capture filter *)
Inductive expression : list text -> text -> Prop :=
| Ex_default : expression [] (str "(ether proto 0x8624) or (tcp port 6363) or (udp port 6363) or (udp port 56363)")
| Ex_words w ws t : spaced (w :: ws) t -> expression (w :: ws) t.

(** where the packets come from: what is announced, and the capture, or the error message *)
Inductive source (P : pcap) (a : arguments) : text -> text + capture -> Prop :=
| So_interface i : present (a_interface a) i ->
    source P a (str "listening on " ++ i)
      (match pc_live P i (negb (a_no_promiscuous a)) with
       | inl e => inl (str "Cannot open interface " ++ i ++ str ": " ++ e)
       | inr c => inr c
       end)
| So_file f : absent (a_interface a) -> present (a_read a) f ->
    source P a (str "reading from file " ++ f)
      (match pc_file P f with
       | inl e => inl (str "Cannot open file '" ++ f ++ str "' for reading: " ++ e)
       | inr c => inr c
       end)
| So_first d ds : absent (a_interface a) -> absent (a_read a) -> pc_devices P = inr (d :: ds) -> d <> [] ->
    source P a (str "listening on " ++ d)
      (match pc_live P d (negb (a_no_promiscuous a)) with
       | inl e => inl (str "Cannot open interface " ++ d ++ str ": " ++ e)
       | inr c => inr c
       end)
| So_none : absent (a_interface a) -> absent (a_read a) -> pc_devices P = inr [] ->
    source P a [] (inl (str "No network interface found"))
| So_error e : absent (a_interface a) -> absent (a_read a) -> pc_devices P = inl e ->
    source P a [] (inl e).

(** [prints E o f ps ls]: of the packets [ps] those selected by [f] are printed as the lines
    [ls], in this order; a packet gives at most one line (which one is the subject of C40,
    C41, C42 and C54) *)
Inductive prints (E : env) (o : dump_opts) (f : packet -> Prop) : list packet -> list text -> Prop :=
| Pr_end : prints E o f [] []
| Pr_skip p ps ls : ~ f p -> prints E o f ps ls -> prints E o f (p :: ps) ls
| Pr_hidden p ps ls : f p -> printPacket E o (p_cap p) (p_len p) (p_sec p) (p_usec p) = Fine None ->
    prints E o f ps ls -> prints E o f (p :: ps) ls
| Pr_line p l ps ls : f p -> printPacket E o (p_cap p) (p_len p) (p_sec p) (p_usec p) = Fine (Some l) ->
    prints E o f ps ls -> prints E o f (p :: ps) (l :: ls).

Definition link_text (d : datalink) : text :=
  (match d_name d with None => d_number d | Some n => n end) ++
  (match d_desc d with None => [] | Some x => str " (" ++ x ++ str ")" end).

(** the filter in use: which packets pass, and the line in verbose mode *)
Inductive in_use (c : capture) (verbose : bool) : text -> list text -> (packet -> Prop) -> Prop :=
| Us_all : in_use c verbose [] [] (fun _ => True)
| Us_some x f : x <> [] -> c_compile c x = Selects f ->
    in_use c verbose x (if verbose then [str "ndndump: using pcap filter: " ++ x] else []) (fun p => f p = true).
Inductive no_filter (c : capture) (verbose : bool) (x : text) : list text -> text -> Prop :=
| Nf_compile e : x <> [] -> c_compile c x = CompileError e ->
    no_filter c verbose x (if verbose then [str "ndndump: using pcap filter: " ++ x] else [])
      (str "Cannot compile pcap filter '" ++ x ++ str "': " ++ e)
| Nf_set e : x <> [] -> c_compile c x = SetError e ->
    no_filter c verbose x (if verbose then [str "ndndump: using pcap filter: " ++ x] else [])
      (str "Cannot set pcap filter: " ++ e).

Section Behaviour.
Variable E : env.
Variable P : pcap.
Variables usage version : list text.
Variable regex : text -> text + (text -> bool).

(** the options are consistent and the expression for names, if any, is valid *)
Inductive accepted (a : arguments) : option (text -> bool) -> Prop :=
| Ac_all : a_help a = false -> a_version a = false -> a_interface a = None \/ a_read a = None ->
    a_filter a = None -> accepted a None
| Ac_some r f : a_help a = false -> a_version a = false -> a_interface a = None \/ a_read a = None ->
    a_filter a = Some r -> regex r = inr f -> accepted a (Some f).

Definition error (m : text) : text := str "ERROR: " ++ m.
Definition announcement (action : text) (c : capture) : text :=
  str "ndndump: " ++ action ++ str ", link-type " ++ link_text (c_datalink c).

(** [behaves cmd out err st]: the lines on the standard output and the standard error, and
    the exit status *)
Inductive behaves : text + arguments -> list text -> list text -> status -> Prop :=
(* wrong usage: status 2, nothing on stdout *)
| Be_unparsable m : behaves (inl m) [] (error m :: [] :: usage) (Ended 2)
| Be_conflict a i r : a_help a = false -> a_version a = false -> a_interface a = Some i -> a_read a = Some r ->
    behaves (inr a) [] (error (str "conflicting '--interface' and '--read' options specified") :: [] :: usage) (Ended 2)
| Be_regex a r m : a_help a = false -> a_version a = false -> a_interface a = None \/ a_read a = None ->
    a_filter a = Some r -> regex r = inl m ->
    behaves (inr a) [] [error (str "invalid filter regex: " ++ m)] (Ended 2)
(* --help, --version *)
| Be_help a : a_help a = true -> behaves (inr a) usage [] (Ended 0)
| Be_version a : a_help a = false -> a_version a = true -> behaves (inr a) version [] (Ended 0)
(* capturing cannot start: status 1, nothing on stdout *)
| Be_closed a f action m : accepted a f -> source P a action (inl m) ->
    behaves (inr a) [] [error m] (Ended 1)
| Be_link a f action c : accepted a f -> source P a action (inr c) -> d_link (c_datalink c) = None ->
    behaves (inr a) [] [announcement action c; error (str "Unsupported link-layer header type " ++ link_text (c_datalink c))]
      (Ended 1)
| Be_expression a f action c l x v m : accepted a f -> source P a action (inr c) -> d_link (c_datalink c) = Some l ->
    expression (a_pcap a) x -> no_filter c (a_verbose a) x v m ->
    behaves (inr a) [] (announcement action c :: v ++ [error m]) (Ended 1)
(* capturing: the lines of the selected packets *)
| Be_done a f action c l x v sel ls : accepted a f -> source P a action (inr c) -> d_link (c_datalink c) = Some l ->
    expression (a_pcap a) x -> in_use c (a_verbose a) x v sel ->
    prints E (DumpOpts l f (negb (a_no_timestamp a))) sel (c_packets c) ls ->
    c_end c = EndOfFile ->
    behaves (inr a) ls (announcement action c :: v) (Ended 0)
| Be_running a f action c l x v sel ls : accepted a f -> source P a action (inr c) -> d_link (c_datalink c) = Some l ->
    expression (a_pcap a) x -> in_use c (a_verbose a) x v sel ->
    prints E (DumpOpts l f (negb (a_no_timestamp a))) sel (c_packets c) ls ->
    c_end c = StillRunning ->
    behaves (inr a) ls (announcement action c :: v) Running
| Be_broken a f action c l x v sel ls m : accepted a f -> source P a action (inr c) -> d_link (c_datalink c) = Some l ->
    expression (a_pcap a) x -> in_use c (a_verbose a) x v sel ->
    prints E (DumpOpts l f (negb (a_no_timestamp a))) sel (c_packets c) ls ->
    c_end c = LoopError m ->
    behaves (inr a) ls (announcement action c :: v ++ [error (str "pcap_loop: " ++ m)]) (Ended 1).
End Behaviour.

(** * NDN traffic on a link *)
(** a port number in a header *)
Definition port (p : N) : list N := be 2 p.
(** the registered ports of the NDN forwarder *)
Definition ndn_port (proto sport dport : N) : Prop :=
  (proto = 6%N \/ proto = 17%N) /\ (sport = 6363%N \/ dport = 6363%N) \/
  proto = 17%N /\ (sport = 56363%N \/ dport = 56363%N).
(** the fragment offset of an IPv4 header, from the 5 bytes after its total length:
    identification, flags and offset, time to live *)
Definition first_fragment (y : list N) : Prop :=
  exists i0 i1 flags ttl, y = [i0; i1; 32 * flags; 0; ttl]%N.

(** a frame content of which one can say whether it belongs to NDN: [ndn] if so *)
Inductive content : N -> list N -> Prop -> Prop :=
| Co_ip4 x y proto z src dst options sport dport rest pad :
    byte_list 5 y -> length z = 2 -> length src = 4 -> length dst = 4 ->
    Nat.modulo (length options) 4 = 0 -> length options <= 40 ->
    (sport < 65536)%N -> (dport < 65536)%N ->
    content ETH_IP4 (ipv4 x y proto z src dst options (port sport ++ port dport ++ rest) ++ pad)
      (first_fragment y /\ ndn_port proto sport dport)
| Co_ip6 x y next hops src dst sport dport rest pad :
    length y = 3 -> length src = 16 -> length dst = 16 ->
    (sport < 65536)%N -> (dport < 65536)%N ->
    content ETH_IP6 (ipv6 x y next hops src dst (port sport ++ port dport ++ rest) ++ pad)
      (ndn_port next sport dport)
| Co_other type b : (type < 65536)%N -> type <> ETH_IP4 -> type <> ETH_IP6 -> content type b (type = ETH_NDN).
Inductive frame : link_type -> list N -> Prop -> Prop :=
| Fr_ether dst src type b ndn : length dst = 6 -> length src = 6 -> content type b ndn ->
    frame DltEther (ethernet dst src type b) ndn
| Fr_sll header type b ndn : length header = 14 -> content type b ndn ->
    frame DltSll (linux_sll header type b) ndn.

(** the compiler of libpcap, applied to the default filter, gives what pcap-filter(7) says *)
Definition compiles_default (c : capture) (l : link_type) : Prop :=
  exists f, c_compile c (str "(ether proto 0x8624) or (tcp port 6363) or (udp port 6363) or (udp port 56363)") = Selects f /\
            forall p, f p = bpf_default (p_cap p) l.

(** [shown E l ts p lines]: a packet and what should be seen of it with the default filter:
    the line of an NDN packet on the NDN ports, nothing of other traffic *)
Inductive shown (E : env) (l : link_type) (ts : bool) : packet -> list text -> Prop :=
| Sh_ndn b n fields (ndn : Prop) sec usec : captured E l b n fields -> frame l b ndn -> ndn ->
    shown E l ts (Packet b (length b) sec usec) [expected_line ts sec usec fields]
| Sh_other b (ndn : Prop) len sec usec : frame l b ndn -> ~ ndn ->
    shown E l ts (Packet b len sec usec) [].

(** every packet has been captured completely *)
Definition complete (c : capture) : Prop := Forall (fun p => p_len p = length (p_cap p)) (c_packets c).

(** NDN packets in PPP as in traces of ndnSIM: the protocol 0x0077 and two more bytes, the
    latter not looking like the PPP or Ethernet types of IPv4, IPv6 or NDN if there is no
    framing *)
Inductive ppp_ndn : list N -> Prop :=
| Pp_framed compressed x y payload : (x < 256)%N -> ppp_ndn (ppp true compressed x y payload)
| Pp_plain x y payload : (x * 256 + y <> 34340)%N -> (x * 256 + y <> 33)%N -> (x * 256 + y <> 87)%N ->
    ppp_ndn (ppp false false x y payload).
