(** Vocabulary for statements about the server programs: sizes of packets in octets, and which
    Interests are served. *)
From Verif Require Import Base TlvModel PingModel PutchunksModel ServeModel DumpModel.
From Coq Require Import String.
From Coq Require Import List.
Import ListNotations.
Local Open Scope list_scope.
Local Open Scope N_scope.

(** * Sizes (NDN packet format) *)
Definition var_size (n : N) : N := if n <? 253 then 1 else if n <? 65536 then 3 else if n <? 4294967296 then 5 else 9.
Definition elem_size (t n : N) : N := var_size t + var_size n + n.
Definition number_size (n : N) : N := if n <? 256 then 1 else if n <? 65536 then 2 else if n <? 4294967296 then 4 else 8.
Definition octets (l : list N) : N := N.of_nat (List.length l).
Definition comp_size (c : component) : N := elem_size (c_type c) (octets (c_value c)).
(** the components of a name *)
Definition name_size (n : name) : N := fold_right N.add 0 (map comp_size n).
(** a Data packet with a signature whose parts have [s1] and [s2] octets *)
Definition packet_size (s1 s2 : N) (d : packet) : N :=
  elem_size 6
   (elem_size 7 (name_size (k_name d)) +
    elem_size 20 ((if (0 <? k_fresh d)%Z then elem_size 25 (number_size (Z.to_N (k_fresh d))) else 0) +
                  match k_fbi d with Some c => elem_size 26 (comp_size c) | None => 0 end) +
    elem_size 21 (octets (k_content d)) + elem_size 22 s1 + elem_size 23 s2).
(** an Interest without other elements than the name, CanBePrefix, MustBeFresh and a Nonce *)
Definition interest_size (i : interest) : N :=
  elem_size 5 (elem_size 7 (name_size (i_name i)) + (if i_canBePrefix i then 2 else 0) + (if i_mustBeFresh i then 2 else 0) + 6).
Definition max_packet : N := 8800.

(** * ndnpingserver *)
Section PingServer.
(** the sizes of the parts of the signature *)
Variable sig : packet -> N * N.
Variable o : sopts.

(** events before the first interruption *)
Fixpoint before_interrupt (es : list psevent) : list psevent :=
  match es with
  | [] | PsInterrupt :: _ => []
  | e :: es' => e :: before_interrupt es'
  end.
(** the Interests among them that are for the server; at most as many as the limit says *)
Definition arriving (es : list psevent) : list interest :=
  flat_map (fun e => match e with
                     | PsInterest i => if is_prefix_of (s_prefix o ++ [Comp 8 [112; 105; 110; 103]]) (i_name i) then [i] else []
                     | _ => [] end) (before_interrupt es).
Definition taken (es : list psevent) : list interest :=
  if s_nMax o =? 0 then arriving es else firstn (N.to_nat (s_nMax o)) (arriving es).
(** the answer: name of the Interest, payload of letters a *)
Definition ping_answer (i : interest) : packet := Packet (i_name i) (repeat 97 (s_size o)) None (s_fresh o).
Definition answerable (i : interest) : bool :=
  let d := ping_answer i in packet_size (fst (sig d)) (snd (sig d)) d <=? max_packet.
(** those before the first one whose answer would be too long *)
Fixpoint up_to_long (l : list interest) : list interest :=
  match l with
  | i :: l' => if answerable i then i :: up_to_long l' else []
  | [] => []
  end.
Definition interrupted (es : list psevent) : bool := existsb (fun e => match e with PsInterrupt => true | _ => false end) es.
Definition registered (es : list psevent) : bool := existsb (fun e => match e with PsRegSuccess => true | _ => false end) es.
Definition limit_reached (es : list psevent) : bool := (0 <? s_nMax o) && (s_nMax o <=? N.of_nat (List.length (arriving es))).
End PingServer.

(** * ndnputchunks *)
(** how many pieces of [size] octets are needed; an empty input needs one *)
Definition pieces_needed (size : nat) (input : list N) : N :=
  N.max 1 ((octets input + N.of_nat size - 1) / N.of_nat size).

Section Putchunks.
Variable sig : packet -> N * N.
Variable name_uri : name -> text.
Variable comp_uri : component -> text.
Variable interest_text : interest -> text.
Variable data_text : packet -> text.

(** the events before the registration of the prefix fails, and why it fails *)
Fixpoint before_failure (es : list cpevent) : list cpevent :=
  match es with
  | [] | CpRegFailure _ :: _ => []
  | e :: es' => e :: before_failure es'
  end.
Fixpoint failure_reason (es : list cpevent) : option text :=
  match es with
  | [] => None
  | CpRegFailure r :: _ => Some r
  | _ :: es' => failure_reason es'
  end.

(** an answer: the length of the Interest, the Interest, and the reply to it *)
Notation answer := (nat * interest * reply)%type.
(** Data: the size of the packet.  Nack: an LpPacket (100) that consists of the header (800)
    and the Interest (80) *)
Definition sendable (a : answer) : bool :=
  match a with
  | (w, _, RpData d) => packet_size (fst (sig d)) (snd (sig d)) d <=? max_packet
  | (w, _, RpNack) => elem_size 100 (elem_size 800 0 + elem_size 80 (N.of_nat w)) <=? max_packet
  end.
Fixpoint up_to_unsendable (l : list answer) : list answer :=
  match l with
  | a :: l' => if sendable a then a :: up_to_unsendable l' else []
  | [] => []
  end.
(** what is printed about it; [d]: the name of Interests for metadata begins with [d] *)
Definition message (verbose : bool) (d : name) (a : answer) : text :=
  if negb verbose then [] else
  match a with
  | (_, i, r) =>
      if is_prefix_of d (i_name i) then
        str "Discovery Interest: " ++ interest_text i ++ newline ++
        match r with
        | RpNack => str "Discovery Interest lacks CanBePrefix, sending Nack" ++ newline
        | RpData p => str "Sending metadata: " ++ data_text p ++ newline
        end
      else
        str "Interest: " ++ interest_text i ++ newline ++
        match r with
        | RpNack => str "Interest cannot be satisfied, sending Nack" ++ newline
        | RpData p => str "Data: " ++ data_text p ++ newline
        end
  end.
(** the messages at the beginning: [n] packets are published under [vp] *)
Definition greeting (quiet : bool) (n : N) (vp : name) : text :=
  if quiet then []
  else str "Loading input ..." ++ newline ++
       str "Published " ++ to_string n ++ (if 1 <? n then str " Data packets" else str " Data packet") ++ str " with prefix " ++ name_uri vp ++ newline.
End Putchunks.
