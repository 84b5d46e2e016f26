(** Damaged and unsupported packets, and what ndndump should report about them.  Written from
    the protocol specifications (see DumpSpec.v), independent of the printing functions.
    Everything is stated in terms of the bytes of a header and the bytes behind it. *)
From Verif Require Import Base TlvModel TlvProofs PingModel DumpModel DumpSpec.
From Coq Require Import String List.
Import ListNotations.
Local Open Scope nat_scope.
Local Open Scope list_scope.

(** * Fields of headers *)
Definition byte_at (b : list N) (i : nat) (x : N) : Prop := nth_error b i = Some x.
Definition word_at (b : list N) (i : nat) (n : nat) : Prop :=
  exists hi lo, byte_at b i hi /\ byte_at b (i + 1) lo /\ n = N.to_nat (256 * hi + lo).
Definition upper (x : N) : nat := N.to_nat (x / 16).
Definition lower (x : N) : nat := N.to_nat (x mod 16).
(** the [n] bytes at offset [i] *)
Definition slice (b : list N) (i n : nat) : list N := firstn n (skipn i b).

(** * TCP and UDP: [b] is everything behind the IP header *)
Inductive transport_error : N -> list N -> list text -> Prop :=
| TE_none b : transport_error 59 b [str "[No next header]"]
| TE_unsupported p b : p <> 59%N -> p <> 6%N -> p <> 17%N ->
    transport_error p b [str "[Unsupported IP proto " ++ to_string p ++ str "]"]
| TE_tcp_short b : length b < 20 ->
    transport_error 6 b [str "TCP truncated header, length " ++ dec (length b)]
| TE_tcp_offset b x : 20 <= length b -> byte_at b 12 x -> upper x < 5 ->
    transport_error 6 b [str "TCP bad header length " ++ dec (4 * upper x)]
| TE_tcp_options b x : 20 <= length b -> byte_at b 12 x -> length b < 4 * upper x ->
    transport_error 6 b [str "TCP truncated header, " ++ dec (4 * upper x - length b) ++ str " bytes missing"]
| TE_udp_short b : length b < 8 ->
    transport_error 17 b [str "UDP truncated header, length " ++ dec (length b)]
| TE_udp_length b l : 8 <= length b -> word_at b 4 l -> l < 8 ->
    transport_error 17 b [str "UDP bad length " ++ dec l]
| TE_udp_missing b l : 8 <= length b -> word_at b 4 l -> length b < l ->
    transport_error 17 b [str "UDP truncated packet, " ++ dec (l - length b) ++ str " bytes missing"].

(** an intact header; its fields and the payload *)
Inductive transport_intact : N -> list N -> list text -> list N -> Prop :=
| TI_tcp b x : byte_at b 12 x -> 5 <= upper x -> 4 * upper x <= length b ->
    transport_intact 6 b [str "TCP"; len_field (skipn (4 * upper x) b)] (skipn (4 * upper x) b)
| TI_udp b l : word_at b 4 l -> 8 <= l -> l <= length b ->
    transport_intact 17 b [str "UDP"; len_field (slice b 8 (l - 8))] (slice b 8 (l - 8)).

(** * IPv4 and IPv6 *)
(** an intact header: protocol, description, and what follows it *)
Inductive ip4_intact : list N -> N -> text -> list N -> Prop :=
| I4 b v l p : byte_at b 0 v -> upper v = 4 -> 5 <= lower v -> word_at b 2 l -> 4 * lower v <= l -> l <= length b ->
    byte_at b 9 p ->
    ip4_intact b p (str "IP " ++ ntop4 (slice b 12 4) ++ str " > " ++ ntop4 (slice b 16 4)) (skipn (4 * lower v) b).
Inductive ip6_intact (E : env) : list N -> N -> text -> list N -> Prop :=
| I6 b v l p : byte_at b 0 v -> upper v = 6 -> word_at b 4 l -> 40 + l <= length b -> byte_at b 6 p ->
    ip6_intact E b p (str "IP6 " ++ e_ntop6 E (slice b 8 16) ++ str " > " ++ e_ntop6 E (slice b 24 16)) (skipn 40 b).

(** [network_error E type b fields]: the content of a frame of the given Ethernet type *)
Inductive network_error (E : env) : N -> list N -> list text -> Prop :=
| NE_unsupported t b : t <> ETH_IP4 -> t <> ETH_IP6 -> t <> ETH_NDN -> t <> ETH_NDNSIM ->
    network_error E t b [str "[Unsupported ethertype " ++ hex t ++ str "]"]
| NE_ip4_short b : length b < 20 ->
    network_error E ETH_IP4 b [str "IP truncated header, length " ++ dec (length b)]
| NE_ip4_version b v : 20 <= length b -> byte_at b 0 v -> upper v <> 4 ->
    network_error E ETH_IP4 b [str "IP bad version " ++ dec (upper v)]
| NE_ip4_header b v : 20 <= length b -> byte_at b 0 v -> upper v = 4 -> lower v < 5 ->
    network_error E ETH_IP4 b [str "IP bad header length " ++ dec (4 * lower v)]
| NE_ip4_length b v l : 20 <= length b -> byte_at b 0 v -> upper v = 4 -> 5 <= lower v ->
    word_at b 2 l -> l < 4 * lower v ->
    network_error E ETH_IP4 b [str "IP bad length " ++ dec l]
| NE_ip4_missing b v l : 20 <= length b -> byte_at b 0 v -> upper v = 4 -> 5 <= lower v ->
    word_at b 2 l -> 4 * lower v <= l -> length b < l ->
    network_error E ETH_IP4 b [str "IP truncated packet, " ++ dec (l - length b) ++ str " bytes missing"]
| NE_ip4_inside b p d rest ds : ip4_intact b p d rest -> transport_error p rest ds ->
    network_error E ETH_IP4 b (d :: ds)
| NE_ip6_short b : length b < 40 ->
    network_error E ETH_IP6 b [str "IP6 truncated header, length " ++ dec (length b)]
| NE_ip6_version b v : 40 <= length b -> byte_at b 0 v -> upper v <> 6 ->
    network_error E ETH_IP6 b [str "IP6 bad version " ++ dec (upper v)]
| NE_ip6_missing b v l : 40 <= length b -> byte_at b 0 v -> upper v = 6 -> word_at b 4 l -> length b < 40 + l ->
    network_error E ETH_IP6 b [str "IP6 truncated payload, " ++ dec (40 + l - length b) ++ str " bytes missing"]
| NE_ip6_inside b p d rest ds : ip6_intact E b p d rest -> transport_error p rest ds ->
    network_error E ETH_IP6 b (d :: ds).
Inductive network_intact (E : env) : N -> list N -> list text -> list N -> Prop :=
| NI_ndn t b : t = ETH_NDN \/ t = ETH_NDNSIM -> network_intact E t b [str "Ethernet"] b
| NI_ip4 b p d rest ds w : ip4_intact b p d rest -> transport_intact p rest ds w ->
    network_intact E ETH_IP4 b (d :: ds) w
| NI_ip6 b p d rest ds w : ip6_intact E b p d rest -> transport_intact p rest ds w ->
    network_intact E ETH_IP6 b (d :: ds) w.

(** * Frames *)
(** PPP: what follows the optional address and control bytes *)
Inductive ppp_inside : list N -> list N -> Prop :=
| PI_framed b : ppp_inside (255 :: 3 :: b)%N b
| PI_plain b : (forall b', b <> (255 :: 3 :: b')%N) -> ppp_inside b b.
(** the protocol number, in one byte if that is odd *)
Inductive ppp_proto : list N -> N -> list N -> Prop :=
| PP_one x b : N.odd x = true -> ppp_proto (x :: b) x b
| PP_two x y b : N.odd x = false -> ppp_proto (x :: y :: b) (256 * x + y)%N b.

(** [frame_error E link b fields]: some header of the frame is damaged, or what it announces
    is not supported *)
Inductive frame_error (E : env) : link_type -> list N -> list text -> Prop :=
| FE_ether_short b : length b < 14 ->
    frame_error E DltEther b [str "Truncated Ethernet frame, length " ++ dec (length b)]
| FE_ether b t ds : 14 <= length b -> word_at b 12 t -> network_error E (N.of_nat t) (skipn 14 b) ds ->
    frame_error E DltEther b ds
| FE_sll_short b : length b < 16 ->
    frame_error E DltSll b [str "Truncated LINUX_SLL frame, length " ++ dec (length b)]
| FE_sll b t ds : 16 <= length b -> word_at b 14 t -> network_error E (N.of_nat t) (skipn 16 b) ds ->
    frame_error E DltSll b ds
| FE_ppp_short b b' : ppp_inside b b' -> length b' < 2 ->
    frame_error E DltPpp b [str "Truncated PPP frame, length " ++ dec (length b)]
| FE_ppp_unsupported b b' p rest : ppp_inside b b' -> 2 <= length b' -> ppp_proto b' p rest -> p <> 119%N ->
    frame_error E DltPpp b [str "[Unsupported PPP proto " ++ hex p ++ str "]"]
| FE_ppp_ndn b b' rest : ppp_inside b b' -> 2 <= length b' -> ppp_proto b' 119 rest -> length rest < 2 ->
    frame_error E DltPpp b [str "Truncated NDN/PPP frame"].
(** [frame_intact E link b fields w]: all headers are intact, [w] is what they carry *)
Inductive frame_intact (E : env) : link_type -> list N -> list text -> list N -> Prop :=
| FI_ether b t ds w : 14 <= length b -> word_at b 12 t -> network_intact E (N.of_nat t) (skipn 14 b) ds w ->
    frame_intact E DltEther b ds w
| FI_sll b t ds w : 16 <= length b -> word_at b 14 t -> network_intact E (N.of_nat t) (skipn 16 b) ds w ->
    frame_intact E DltSll b ds w
| FI_ppp b b' x y w : ppp_inside b b' -> ppp_proto b' 119 (x :: y :: w) ->
    frame_intact E DltPpp b [str "PPP"] w.

(** * What the headers carry *)
(** [b] does not begin with a complete TLV element *)
Definition not_element (b : list N) : Prop := forall t v rest, elem_ok t v -> b <> tlv t v ++ rest.
(** a network packet, in a LpPacket or not, that cannot be shown *)
Inductive packet_error (E : env) : list N -> text -> Prop :=
| PE_type t v : elem_ok t v -> t <> 5%N -> t <> 6%N ->
    packet_error E (tlv t v) (str "[Unsupported NDN packet type " ++ to_string t ++ str "]")
| PE_interest v what : elem_ok 5 v -> e_interest E (tlv 5 v) = inl what ->
    packet_error E (tlv 5 v) (str "invalid network packet: " ++ what)
| PE_data v what : elem_ok 6 v -> e_data E (tlv 6 v) = inl what ->
    packet_error E (tlv 6 v) (str "invalid network packet: " ++ what).
Inductive payload_error (E : env) : list N -> list text -> Prop :=
| LE_truncated b : b <> [] -> not_element b ->
    payload_error E b [str "NDN truncated packet, length " ++ dec (length b)]
| LE_packet t v more d : t <> 100%N -> elem_ok t v -> packet_error E (tlv t v) d ->
    payload_error E (tlv t v ++ more) [d]
| LE_lp_invalid v more what : elem_ok 100 v -> e_lp E (tlv 100 v) = LpInvalid what ->
    payload_error E (tlv 100 v ++ more) [str "NDNLPv2 invalid packet: " ++ what]
| LE_lp_idle v more i c nack : elem_ok 100 v -> e_lp E (tlv 100 v) = LpPacket i c None nack ->
    payload_error E (tlv 100 v ++ more) [str "NDNLPv2 idle"]
| LE_lp_fragment v more i c frag nack : elem_ok 100 v -> e_lp E (tlv 100 v) = LpPacket i c (Some frag) nack ->
    not_element frag ->
    payload_error E (tlv 100 v ++ more) [str "NDNLPv2 fragment"]
| LE_lp_packet v more i c p more' nack d : elem_ok 100 v ->
    e_lp E (tlv 100 v) = LpPacket i c (Some (p ++ more')) nack -> packet_error E p d ->
    payload_error E (tlv 100 v ++ more) [str "NDNLPv2"; d].
(** a packet named [n] that can be shown, possibly followed by other bytes.  In DumpSpec.v,
    the Fragment of an LpPacket consists of the network packet only. *)
Inductive payload_packet (E : env) : list N -> name -> list text -> Prop :=
| LP_data v more n : elem_ok 6 v -> e_data E (tlv 6 v) = inr n ->
    payload_packet E (tlv 6 v ++ more) n [str "DATA: " ++ e_uri E n]
| LP_interest v more n txt : elem_ok 5 v -> e_interest E (tlv 5 v) = inr (n, txt) ->
    payload_packet E (tlv 5 v ++ more) n [str "INTEREST: " ++ txt]
| LP_lp_data v more i c v' more' n nack : elem_ok 100 v ->
    e_lp E (tlv 100 v) = LpPacket i c (Some (tlv 6 v' ++ more')) nack ->
    elem_ok 6 v' -> e_data E (tlv 6 v') = inr n ->
    payload_packet E (tlv 100 v ++ more) n [str "NDNLPv2"; str "DATA: " ++ e_uri E n]
| LP_lp_interest v more i c v' more' n txt : elem_ok 100 v ->
    e_lp E (tlv 100 v) = LpPacket i c (Some (tlv 5 v' ++ more')) None ->
    elem_ok 5 v' -> e_interest E (tlv 5 v') = inr (n, txt) ->
    payload_packet E (tlv 100 v ++ more) n [str "NDNLPv2"; str "INTEREST: " ++ txt]
| LP_lp_nack v more i c v' more' n txt reason : elem_ok 100 v ->
    e_lp E (tlv 100 v) = LpPacket i c (Some (tlv 5 v' ++ more')) (Some (inr reason)) ->
    elem_ok 5 v' -> e_interest E (tlv 5 v') = inr (n, txt) ->
    payload_packet E (tlv 100 v ++ more) n [str "NDNLPv2"; str "NACK (" ++ reason ++ str "): " ++ txt]
| LP_lp_nack_invalid v more i c v' more' n txt what : elem_ok 100 v ->
    e_lp E (tlv 100 v) = LpPacket i c (Some (tlv 5 v' ++ more')) (Some (inl what)) ->
    elem_ok 5 v' -> e_interest E (tlv 5 v') = inr (n, txt) ->
    payload_packet E (tlv 100 v ++ more) n [str "NDNLPv2"; str "invalid network packet: " ++ what].

(** Fragments are byte strings *)
Definition byte_fragments (E : env) : Prop :=
  forall w i c frag nack, e_lp E w = LpPacket i c (Some frag) nack -> Forall is_byte frag.
(** Hexadecimal numbers: the value of a digit *)
Definition hex_digit (d : N) : option N :=
  if ((48 <=? d) && (d <=? 57))%N%bool then Some (d - 48)%N
  else if ((97 <=? d) && (d <=? 102))%N%bool then Some (d - 87)%N else None.
Fixpoint hexadecimal (acc : N) (l : text) : option N :=
  match l with
  | [] => Some acc
  | d :: l' => match hex_digit d with Some x => hexadecimal (16 * acc + x)%N l' | None => None end
  end.
