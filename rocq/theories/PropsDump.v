(** Properties of ndndump: C39-C42. *)
From Verif Require Import Base TlvModel TlvProofs PingModel DumpModel DumpSpec DumpProofs DumpProofs2.
From Coq Require Import String List.
Import ListNotations.
Local Open Scope nat_scope.
Local Open Scope list_scope.

(** An environment for the examples: the value of an Interest or Data is its name, an
    LpPacket consists of FragIndex, FragCount and Fragment (without their headers). *)
Definition toy : env := {|
  e_lp w := match skipn 2 w with i :: c :: fr => LpPacket i c (Some fr) None | _ => LpInvalid (str "empty") end;
  e_interest w := inr ([Comp 8 (skipn 2 w)], 47%N :: skipn 2 w);
  e_data w := inr [Comp 8 (skipn 2 w)];
  e_uri n := flat_map (fun c => 47%N :: c_value c) n;
  e_ntop6 _ := str "::1" |}.
Definition opts (l : link_type) (f : option (text -> bool)) (ts : bool) : dump_opts := DumpOpts l f ts.
Definition zeros (k : nat) : list N := repeat 0%N k.
(** a Data packet named /AB, in UDP over IPv4 over Ethernet, with 3 bytes of padding *)
Definition ab : list N := tlv 6 (str "AB").
Definition ab_frame : list N :=
  ethernet (zeros 6) (zeros 6) ETH_IP4
    (ipv4 0 (zeros 5) 17 (zeros 2) [10; 0; 0; 1]%N [10; 0; 0; 2]%N (zeros 4) (udp (zeros 2) (zeros 2) (zeros 2) ab) ++ zeros 3).
Definition ab_fields : list text := [str "IP 10.0.0.1 > 10.0.0.2"; str "UDP"; str "length 4"; str "DATA: /AB"].
Lemma ab_captured : captured toy DltEther ab_frame [Comp 8 (str "AB")] ab_fields.
Proof.
  apply F_ether; [|reflexivity|reflexivity].
  apply (C_ip4 toy 0%N (zeros 5) 17%N (zeros 2) [10; 0; 0; 1]%N [10; 0; 0; 2]%N (zeros 4)
           (udp (zeros 2) (zeros 2) (zeros 2) ab) (zeros 3) [Comp 8 (str "AB")] [str "UDP"; str "length 4"; str "DATA: /AB"]).
  - apply (T_udp toy (zeros 2) (zeros 2) (zeros 2) ab [Comp 8 (str "AB")] [str "DATA: /AB"]).
    + apply (D_data toy (str "AB") [Comp 8 (str "AB")]); [|reflexivity]. repeat split; vm_compute; auto; try discriminate.
    + repeat split; vm_compute; auto.
    + repeat split; repeat constructor; vm_compute; auto.
    + repeat split; repeat constructor; vm_compute; auto.
    + vm_compute. discriminate.
  - vm_compute; auto.
  - repeat split; repeat constructor; vm_compute; auto.
  - vm_compute; auto.
  - repeat split; repeat constructor; vm_compute; auto.
  - repeat split; repeat constructor; vm_compute; auto.
  - repeat split; repeat constructor; vm_compute; auto.
  - repeat constructor; vm_compute; auto.
  - reflexivity.
  - vm_compute; lia.
  - vm_compute; discriminate.
Qed.

(** * C39 ndndump reads only captured bytes *)

(** Full statement: printing never reads outside of the captured bytes, and no length
    computation wraps around.  Proved: the second part for all captures, the first part for
    packets that were captured completely. *)
Theorem C39_in_bounds_partial :
  forall (E : env) (O : dump_opts) (cap : list N) (sec usec : N),
    printPacket E O cap (length cap) sec usec <> OutOfBounds.
Proof. exact packet_in_bounds. Qed.
Print Assumptions C39_in_bounds_partial.

Theorem C39_no_wraparound :
  forall (E : env) (O : dump_opts) (cap : list N) (len : nat) (sec usec : N),
    printPacket E O cap len sec usec <> Wraparound.
Proof. exact printPacket_nw. Qed.
Print Assumptions C39_no_wraparound.

(** The first part is false of a packet whose captured part (14 bytes) is shorter than the
    packet (60 bytes): the length on the wire is used instead of the captured length. *)
Theorem C39_refuted :
  exists (E : env) (O : dump_opts) (cap : list N) (len : nat),
    length cap <= len /\ printPacket E O cap len 0 0 = OutOfBounds.
Proof.
  exists toy, (opts DltEther None false), (ethernet (zeros 6) (zeros 6) ETH_NDN []), 60. split; [vm_compute; lia|reflexivity].
Qed.
Print Assumptions C39_refuted.

Example C39_case :
  printPacket toy (opts DltSll None false) (linux_sll (zeros 14) ETH_IP6 (96%N :: zeros 20)) 37 0 0 =
  Fine (Some (str "IP6 truncated header, length 21")).
Proof. vm_compute. reflexivity. Qed.

(** * C40 ndndump decapsulates correctly *)

(** Full statement: an NDN packet ([captured], DumpSpec.v) in Ethernet, Linux cooked or PPP
    frames, directly or in UDP or TCP over IPv4 or IPv6, is printed with the right addresses,
    transport, length and description, whatever the header fields, options and padding.
    Missing: padding behind a TCP segment, which is taken as payload. *)
Theorem C40_decapsulation_partial :
  forall (E : env) (link : link_type) (ts : bool) (b : list N) (n : name) (fields : list text) (sec usec : N),
    captured E link b n fields ->
    printPacket E (opts link None ts) b (length b) sec usec = Fine (Some (expected_line ts sec usec fields)).
Proof. exact decapsulation. Qed.
Print Assumptions C40_decapsulation_partial.

Example C40_case :
  captured toy DltEther ab_frame [Comp 8 (str "AB")] ab_fields /\
  printPacket toy (opts DltEther None true) ab_frame (length ab_frame) 17 42 =
  Fine (Some (str "17.000042 IP 10.0.0.1 > 10.0.0.2, UDP, length 4, DATA: /AB")).
Proof. split; [exact ab_captured|vm_compute; reflexivity]. Qed.

(** A TCP segment without payload (an acknowledgment) is not printed, but if Ethernet padding
    follows it, the padding is reported as NDN packet. *)
Theorem C40_tcp_padding_refuted :
  exists (b pad : list N),
    let frame x := ethernet (zeros 6) (zeros 6) ETH_IP4
      (ipv4 0 (zeros 5) 6 (zeros 2) [10; 0; 0; 1]%N [10; 0; 0; 2]%N [] b ++ x) in
    b = tcp (zeros 12) 0 (zeros 7) [] [] /\
    printPacket toy (opts DltEther None false) (frame []) (length (frame [])) 0 0 = Fine None /\
    printPacket toy (opts DltEther None false) (frame pad) (length (frame pad)) 0 0 =
      Fine (Some (str "IP 10.0.0.1 > 10.0.0.2, TCP, length 6, NDN truncated packet, length 6")).
Proof. exists (tcp (zeros 12) 0 (zeros 7) [] []), (zeros 6). vm_compute. auto. Qed.
Print Assumptions C40_tcp_padding_refuted.

(** A fragment (FragIndex 1 of 2) of a network packet whose bytes look like a packet is
    reported as a packet. *)
Theorem C40_fragment_refuted :
  exists (E : env) (wire frag : list N),
    e_lp E wire = LpPacket 1 2 (Some frag) None /\
    let frame := ethernet (zeros 6) (zeros 6) ETH_NDN wire in
    printPacket E (opts DltEther None false) frame (length frame) 0 0 = Fine (Some (str "Ethernet, NDNLPv2, DATA: /AB")).
Proof. exists toy, (tlv 100 (1 :: 2 :: ab)%N), ab. vm_compute. auto. Qed.
Print Assumptions C40_fragment_refuted.

(** A fragment of an IPv4 datagram other than the first one (fragment offset 185) has no UDP
    header, but its payload is interpreted as one. *)
Theorem C40_ip_fragment_refuted :
  exists (payload : list N),
    let frame := ethernet (zeros 6) (zeros 6) ETH_IP4
      (ipv4 0 [0; 1; 0; 185; 64]%N 17 (zeros 2) [10; 0; 0; 1]%N [10; 0; 0; 2]%N [] payload) in
    printPacket toy (opts DltEther None false) frame (length frame) 0 0 =
      Fine (Some (str "IP 10.0.0.1 > 10.0.0.2, UDP, length 4, DATA: /AB")).
Proof. exists (udp (zeros 2) (zeros 2) (zeros 2) ab). vm_compute. reflexivity. Qed.
Print Assumptions C40_ip_fragment_refuted.

(** * C41 ndndump name filter *)

(** The line of an NDN packet is printed iff its name matches. *)
Theorem C41_filter :
  forall (E : env) (link : link_type) (ts : bool) (f : text -> bool) (b : list N) (n : name) (fields : list text) (sec usec : N),
    captured E link b n fields ->
    printPacket E (opts link (Some f) ts) b (length b) sec usec =
      Fine (if f (e_uri E n) then Some (expected_line ts sec usec fields) else None).
Proof. exact filtered. Qed.
Print Assumptions C41_filter.

(** For any captured bytes: either no filter makes a difference, or there is one name, of a
    packet that was decoded, such that for every filter the result is the one without a
    filter if the name matches, and no output if it does not. *)
Theorem C41_filter_any_capture :
  forall (E : env) (link : link_type) (ts : bool) (cap : list N) (len : nat) (sec usec : N),
    let P f := printPacket E (opts link f ts) cap len sec usec in
    (forall f, P (Some f) = P None) \/
    (exists n, decoded_name E n /\ forall f : text -> bool, P (Some f) = if f (e_uri E n) then P None else Fine None).
Proof. exact (fun E L T cap len sec usec => packet_dep E cap L T len sec usec). Qed.
Print Assumptions C41_filter_any_capture.

Example C41_case :
  let yes (u : text) := (length u =? 3) in let no (u : text) := (length u =? 2) in
  printPacket toy (opts DltEther (Some yes) false) ab_frame (length ab_frame) 17 42 =
    Fine (Some (str "IP 10.0.0.1 > 10.0.0.2, UDP, length 4, DATA: /AB")) /\
  printPacket toy (opts DltEther (Some no) false) ab_frame (length ab_frame) 17 42 = Fine None.
Proof. vm_compute. auto. Qed.

(** * C42 ndndump line format *)

(** Every line is a list of non-empty fields without commas, separated by ", ", optionally
    preceded by the time stamp.  The texts from the environment are assumed to contain no
    comma (in URIs it is escaped). *)
Theorem C42_fields :
  forall (E : env) (O : dump_opts) (cap : list N), no_commas E ->
  forall (len : nat) (sec usec : N) (line : text),
    printPacket E O cap len sec usec = Fine (Some line) ->
    line_of_fields line \/
    (o_timestamp O = true /\ exists l, line = printTimestamp sec usec ++ l /\ line_of_fields l).
Proof. exact packet_line. Qed.
Print Assumptions C42_fields.

Theorem C42_timestamp :
  forall (sec usec : N), (sec < 18446744073709551616)%N -> (usec < 1000000)%N ->
  exists s f, printTimestamp sec usec = s ++ str "." ++ f ++ str " " /\
    s <> [] /\ decimal s sec /\ length f = 6 /\ decimal f usec.
Proof. exact timestamp_shape. Qed.
Print Assumptions C42_timestamp.

Example C42_case : exists line, no_commas {| e_lp := e_lp toy; e_interest _ := inl (str "x"); e_data _ := inl (str "bad");
                                             e_uri _ := str "/A"; e_ntop6 _ := str "::1" |} /\
  printPacket {| e_lp := e_lp toy; e_interest _ := inl (str "x"); e_data _ := inl (str "bad");
                 e_uri _ := str "/A"; e_ntop6 _ := str "::1" |} (opts DltPpp None true) (ppp true false 0 0 ab) 10 1 2 = Fine (Some line) /\
  line = str "1.000002 PPP, invalid network packet: bad".
Proof.
  eexists. split; [|split; [vm_compute; reflexivity|reflexivity]].
  repeat split; cbn [e_lp e_interest e_data e_uri e_ntop6 toy]; intros.
  - destruct (skipn 2 w) as [|? [|? ?]]; inversion H; apply ncb_ok; reflexivity.
  - destruct (skipn 2 w) as [|? [|? ?]]; destruct H; discriminate.
  - inversion H; apply ncb_ok; reflexivity.
  - discriminate.
  - inversion H; apply ncb_ok; reflexivity.
  - apply ncb_ok; reflexivity.
  - apply ncb_ok; reflexivity.
Qed.
