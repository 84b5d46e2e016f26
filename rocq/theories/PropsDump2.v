(** Properties of ndndump, continued: C54 (damaged and unsupported packets). *)
From Verif Require Import Base TlvModel TlvProofs PingModel DumpModel DumpSpec DumpSpec2 DumpProofs DumpProofs2 DumpProofs3 PropsDump.
From Coq Require Import String List.
Import ListNotations.
Local Open Scope nat_scope.
Local Open Scope list_scope.

(** * C54 ndndump reports what is wrong with a packet *)

(** Damaged or unsupported headers ([frame_error], DumpSpec2.v) are reported, after the intact
    ones in front of them, whatever the name filter. *)
Theorem C54_damaged_headers :
  forall (E : env) (link : link_type) (f : option (text -> bool)) (ts : bool) (b : list N) (fields : list text) (sec usec : N),
    b <> [] -> frame_error E link b fields ->
    printPacket E (opts link f ts) b (length b) sec usec = Fine (Some (expected_line ts sec usec fields)).
Proof. exact report_header. Qed.
Print Assumptions C54_damaged_headers.

(** With intact headers, a payload that is no NDN packet, a damaged one or an unsupported one
    is reported, whatever the name filter. *)
Theorem C54_damaged_payload :
  forall (E : env) (link : link_type) (f : option (text -> bool)) (ts : bool) (b : list N) (fields : list text)
         (w : list N) (ds : list text) (sec usec : N),
    b <> [] -> byte_fragments E -> Forall is_byte b ->
    frame_intact E link b fields w -> payload_error E w ds ->
    printPacket E (opts link f ts) b (length b) sec usec = Fine (Some (expected_line ts sec usec (fields ++ ds))).
Proof. exact report_payload. Qed.
Print Assumptions C54_damaged_payload.

(** A packet without payload (for example a TCP acknowledgment) is not printed. *)
Theorem C54_no_payload :
  forall (E : env) (link : link_type) (f : option (text -> bool)) (ts : bool) (b : list N) (fields : list text) (sec usec : N),
    b <> [] -> frame_intact E link b fields [] ->
    printPacket E (opts link f ts) b (length b) sec usec = Fine None.
Proof. exact report_empty. Qed.
Print Assumptions C54_no_payload.

(** An NDN packet behind intact headers is printed iff its name passes the filter. *)
Theorem C54_packet :
  forall (E : env) (link : link_type) (f : option (text -> bool)) (ts : bool) (b : list N) (fields : list text)
         (w : list N) (n : name) (ds : list text) (sec usec : N),
    b <> [] -> frame_intact E link b fields w -> payload_packet E w n ds ->
    printPacket E (opts link f ts) b (length b) sec usec =
      Fine (if match f with None => true | Some p => p (e_uri E n) end
            then Some (expected_line ts sec usec (fields ++ ds)) else None).
Proof. exact report_packet. Qed.
Print Assumptions C54_packet.

(** There is no other case: the theorems above determine the output for every packet that
    was captured completely. *)
Theorem C54_every_packet :
  forall (E : env) (link : link_type) (b : list N), byte_fragments E -> Forall is_byte b ->
    (exists ds, frame_error E link b ds) \/
    (exists ds w, frame_intact E link b ds w /\
       (w = [] \/ (exists es, payload_error E w es) \/ (exists n es, payload_packet E w n es))).
Proof. exact report_total. Qed.
Print Assumptions C54_every_packet.

(** Numbers of unsupported protocols are shown in hexadecimal. *)
Theorem C54_hexadecimal :
  forall n : N, (n < 18446744073709551616)%N ->
    exists digits, hex n = str "0x" ++ digits /\ digits <> [] /\ hexadecimal 0 digits = Some n.
Proof. exact hex_value. Qed.
Print Assumptions C54_hexadecimal.

(** A TCP segment over IPv4 with a header length of 12 bytes *)
Definition bad_tcp : list N :=
  ethernet (zeros 6) (zeros 6) ETH_IP4
    (ipv4 0 (zeros 5) 6 (zeros 2) [10; 0; 0; 1]%N [10; 0; 0; 2]%N [] (zeros 12 ++ 48%N :: zeros 7)).
Example C54_case :
  frame_error toy DltEther bad_tcp [str "IP 10.0.0.1 > 10.0.0.2"; str "TCP bad header length 12"] /\
  printPacket toy (opts DltEther None true) bad_tcp (length bad_tcp) 17 42 =
    Fine (Some (str "17.000042 IP 10.0.0.1 > 10.0.0.2, TCP bad header length 12")).
Proof.
  split; [|vm_compute; reflexivity].
  apply (FE_ether toy bad_tcp 2048); [vm_compute; lia|exists 8%N, 0%N; vm_compute; auto|].
  change (N.of_nat 2048) with ETH_IP4.
  apply (NE_ip4_inside toy _ 6%N (str "IP 10.0.0.1 > 10.0.0.2") (zeros 12 ++ 48%N :: zeros 7) [str "TCP bad header length 12"]).
  - apply (I4 (skipn 14 bad_tcp) 69%N 40 6%N); try (vm_compute; reflexivity); try (vm_compute; lia).
    exists 0%N, 40%N. vm_compute. auto.
  - apply (TE_tcp_offset (zeros 12 ++ 48%N :: zeros 7) 48%N); [vm_compute; lia|reflexivity|vm_compute; lia].
Qed.
Print Assumptions C54_case.
(** The payload of an UDP datagram that ends inside of a packet, and an unsupported type *)
Definition udp_frame (w : list N) : list N :=
  ethernet (zeros 6) (zeros 6) ETH_IP4
    (ipv4 0 (zeros 5) 17 (zeros 2) [10; 0; 0; 1]%N [10; 0; 0; 2]%N [] (udp (zeros 2) (zeros 2) (zeros 2) w)).
Lemma udp_frame_intact : frame_intact toy DltEther (udp_frame [6; 4; 65]%N)
  [str "IP 10.0.0.1 > 10.0.0.2"; str "UDP"; str "length 3"] [6; 4; 65]%N.
Proof.
  apply (FI_ether toy (udp_frame [6; 4; 65]%N) 2048); [vm_compute; lia|exists 8%N, 0%N; vm_compute; auto|].
  change (N.of_nat 2048) with ETH_IP4.
  apply (NI_ip4 toy _ 17%N (str "IP 10.0.0.1 > 10.0.0.2") (udp (zeros 2) (zeros 2) (zeros 2) [6; 4; 65]%N) [str "UDP"; str "length 3"]).
  - apply (I4 (skipn 14 (udp_frame [6; 4; 65]%N)) 69%N 31 17%N); try (vm_compute; reflexivity); try (vm_compute; lia).
    exists 0%N, 31%N. vm_compute. auto.
  - apply (TI_udp (udp (zeros 2) (zeros 2) (zeros 2) [6; 4; 65]%N) 11); [exists 0%N, 11%N; vm_compute; auto|lia|vm_compute; lia].
Qed.
Example C54_case_payload : payload_error toy [6; 4; 65]%N [str "NDN truncated packet, length 3"] /\
  printPacket toy (opts DltEther (Some (fun _ => false)) false) (udp_frame [6; 4; 65]%N) (length (udp_frame [6; 4; 65]%N)) 0 0 =
    Fine (Some (str "IP 10.0.0.1 > 10.0.0.2, UDP, length 3, NDN truncated packet, length 3")).
Proof.
  split; [|vm_compute; reflexivity]. apply LE_truncated; [discriminate|].
  intros t v rest Hv X. pose proof (read_tlv_tlv t v rest Hv) as R. rewrite <- X in R. discriminate.
Qed.
