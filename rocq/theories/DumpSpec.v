(** Encapsulation of NDN packets, and what ndndump should print about them.  Written from
    the protocol specifications (Ethernet, LINKTYPE_LINUX_SLL, PPP, RFC 791, 8200, 768, 9293,
    NDNLPv2), independent of the printing functions. *)
From Verif Require Import Base TlvModel TlvProofs PingModel DumpModel.
From Coq Require Import String List.
Import ListNotations.
Local Open Scope nat_scope.
Local Open Scope list_scope.

Definition byte_list (k : nat) (l : list N) : Prop := length l = k /\ Forall is_byte l.

(** * Headers *)

(** Ethernet: destination, source (6 bytes each), type *)
Definition ethernet (dst src : list N) (type : N) (payload : list N) : list N :=
  dst ++ src ++ be 2 type ++ payload.
(** Linux cooked capture: packet type, ARPHRD type, address length, address (14 bytes), protocol *)
Definition linux_sll (header : list N) (type : N) (payload : list N) : list N :=
  header ++ be 2 type ++ payload.
(** IPv4 with options; [x]: type of service, [y]: identification, flags, fragment offset and
    time to live (5 bytes), [z]: checksum (2 bytes) *)
Definition ipv4 (x : N) (y : list N) (proto : N) (z src dst options payload : list N) : list N :=
  (64 + N.of_nat (5 + length options / 4))%N :: x :: be 2 (N.of_nat (20 + length options + length payload)) ++
  y ++ proto :: z ++ src ++ dst ++ options ++ payload.
(** IPv6; [x]: 4 bits of the traffic class, [y]: rest of it and flow label (3 bytes) *)
Definition ipv6 (x : N) (y : list N) (next hops : N) (src dst payload : list N) : list N :=
  (96 + x)%N :: y ++ be 2 (N.of_nat (length payload)) ++ next :: hops :: src ++ dst ++ payload.
(** UDP: ports (2 bytes each), length, checksum (2 bytes) *)
Definition udp (sport dport cks payload : list N) : list N :=
  sport ++ dport ++ be 2 (N.of_nat (8 + length payload)) ++ cks ++ payload.
(** TCP: ports, sequence and acknowledgment number (12 bytes), data offset with 4 more bits
    [x], flags, window, checksum, urgent pointer (7 bytes), options *)
Definition tcp (header12 : list N) (x : N) (header7 options payload : list N) : list N :=
  header12 ++ (16 * N.of_nat (5 + length options / 4) + x)%N :: header7 ++ options ++ payload.
(** PPP as produced by ndnSIM, with or without HDLC-like framing, protocol field in one or
    two bytes *)
Definition ppp (framed compressed : bool) (x y : N) (payload : list N) : list N :=
  (if framed then [255; 3]%N else []) ++ (if compressed then [119]%N else [0; 119]%N) ++ x :: y :: payload.

Definition ETH_IP4 : N := 2048.   (* 0x0800 *)
Definition ETH_IP6 : N := 34525.  (* 0x86dd *)
Definition ETH_NDN : N := 34340.  (* 0x8624 *)
Definition ETH_NDNSIM : N := 30583. (* 0x7777 *)

(** * Descriptions *)
Fixpoint join (fields : list text) : text :=
  match fields with
  | [] => []
  | [f] => f
  | f :: fs => f ++ str ", " ++ join fs
  end.

(** [describes E w n fields]: [w] is an NDN packet named [n], to be printed as [fields] *)
Inductive describes (E : env) : list N -> name -> list text -> Prop :=
| D_data v n : elem_ok 6 v -> e_data E (tlv 6 v) = inr n ->
    describes E (tlv 6 v) n [str "DATA: " ++ e_uri E n]
| D_interest v n txt : elem_ok 5 v -> e_interest E (tlv 5 v) = inr (n, txt) ->
    describes E (tlv 5 v) n [str "INTEREST: " ++ txt]
| D_lp_data v i c v' n nack : elem_ok 100 v -> e_lp E (tlv 100 v) = LpPacket i c (Some (tlv 6 v')) nack ->
    elem_ok 6 v' -> e_data E (tlv 6 v') = inr n ->
    describes E (tlv 100 v) n [str "NDNLPv2"; str "DATA: " ++ e_uri E n]
| D_lp_interest v i c v' n txt : elem_ok 100 v -> e_lp E (tlv 100 v) = LpPacket i c (Some (tlv 5 v')) None ->
    elem_ok 5 v' -> e_interest E (tlv 5 v') = inr (n, txt) ->
    describes E (tlv 100 v) n [str "NDNLPv2"; str "INTEREST: " ++ txt]
| D_lp_nack v i c v' n txt reason : elem_ok 100 v ->
    e_lp E (tlv 100 v) = LpPacket i c (Some (tlv 5 v')) (Some (inr reason)) ->
    elem_ok 5 v' -> e_interest E (tlv 5 v') = inr (n, txt) ->
    describes E (tlv 100 v) n [str "NDNLPv2"; str "NACK (" ++ reason ++ str "): " ++ txt].

Definition len_field (payload : list N) : text := str "length " ++ dec (length payload).

(** what follows an IP header: UDP with arbitrary padding behind it, or TCP, whose payload
    may continue after the packet *)
Inductive transport (E : env) : N -> list N -> list N -> name -> list text -> Prop :=
| T_udp sport dport cks w n ds pad : describes E w n ds ->
    byte_list 2 sport -> byte_list 2 dport -> byte_list 2 cks -> (Z.of_nat (8 + length w) <= 65535)%Z ->
    transport E 17 (udp sport dport cks w) pad n (str "UDP" :: len_field w :: ds)
| T_tcp h12 x h7 options w more n ds : describes E w n ds ->
    byte_list 12 h12 -> (x < 16)%N -> byte_list 7 h7 -> Forall is_byte options ->
    Nat.modulo (length options) 4 = 0 -> length options <= 40 ->
    transport E 6 (tcp h12 x h7 options (w ++ more)) [] n (str "TCP" :: len_field (w ++ more) :: ds).

(** [carried E type b n fields]: [b], the content of a frame of the given Ethernet type *)
Inductive carried (E : env) : N -> list N -> name -> list text -> Prop :=
| C_ndn type w pad n ds : describes E w n ds -> type = ETH_NDN \/ type = ETH_NDNSIM ->
    carried E type (w ++ pad) n (str "Ethernet" :: ds)
| C_ip4 x y proto z src dst options b pad n ds :
    transport E proto b pad n ds ->
    is_byte x -> byte_list 5 y -> is_byte proto -> byte_list 2 z -> byte_list 4 src -> byte_list 4 dst ->
    Forall is_byte options -> Nat.modulo (length options) 4 = 0 -> length options <= 40 ->
    (Z.of_nat (20 + length options + length b) <= 65535)%Z ->
    carried E ETH_IP4 (ipv4 x y proto z src dst options b ++ pad) n
            ((str "IP " ++ ntop4 src ++ str " > " ++ ntop4 dst) :: ds)
| C_ip6 x y next hops src dst b pad n ds :
    transport E next b pad n ds ->
    (x < 16)%N -> byte_list 3 y -> is_byte next -> is_byte hops -> byte_list 16 src -> byte_list 16 dst ->
    (Z.of_nat (length b) <= 65535)%Z ->
    carried E ETH_IP6 (ipv6 x y next hops src dst b ++ pad) n
            ((str "IP6 " ++ e_ntop6 E src ++ str " > " ++ e_ntop6 E dst) :: ds).

(** [captured E l b n fields]: a whole frame of link type [l] *)
Inductive captured (E : env) : link_type -> list N -> name -> list text -> Prop :=
| F_ether dst src type b n ds : carried E type b n ds -> length dst = 6 -> length src = 6 ->
    captured E DltEther (ethernet dst src type b) n ds
| F_sll header type b n ds : carried E type b n ds -> length header = 14 ->
    captured E DltSll (linux_sll header type b) n ds
| F_ppp framed compressed x y w pad n ds : describes E w n ds ->
    captured E DltPpp (ppp framed compressed x y (w ++ pad)) n (str "PPP" :: ds).

(** The line ndndump should print for a packet: the time stamp and the fields *)
Definition expected_line (timestamp : bool) (sec usec : N) (fields : list text) : text :=
  (if timestamp then printTimestamp sec usec else []) ++ join fields.

(** * Fields of a line *)
Definition comma : N := 44.
Definition field (t : text) : Prop := t <> [] /\ ~ In comma t.
Definition line_of_fields (t : text) : Prop :=
  exists fs, fs <> [] /\ Forall field fs /\ t = join fs.
(** Decimal numbers *)
Definition digit (d : N) : Prop := (48 <= d <= 57)%N.
Definition decimal (l : text) (n : N) : Prop :=
  Forall digit l /\ fold_left (fun a d => 10 * a + (d - 48))%N l 0%N = n.
(** the texts produced by the environment do not contain commas (they are escaped in URIs) *)
Definition no_commas (E : env) : Prop :=
  (forall w what, e_lp E w = LpInvalid what -> ~ In comma what) /\
  (forall w i c f t, e_lp E w = LpPacket i c f (Some (inl t)) \/ e_lp E w = LpPacket i c f (Some (inr t)) -> ~ In comma t) /\
  (forall w what, e_interest E w = inl what -> ~ In comma what) /\
  (forall w n t, e_interest E w = inr (n, t) -> ~ In comma t) /\
  (forall w what, e_data E w = inl what -> ~ In comma what) /\
  (forall n, ~ In comma (e_uri E n)) /\
  (forall a, ~ In comma (e_ntop6 E a)).
(** [n] is the name of a packet that can be decoded *)
Definition decoded_name (E : env) (n : name) : Prop :=
  (exists w txt, e_interest E w = inr (n, txt)) \/ (exists w, e_data E w = inr n).
