(** Model of tools/dump/ndndump.{hpp,cpp}: printing of captured packets.

    The captured bytes are a list; every read of the program goes through [rd], [rd_range] or
    [from_buffer], which report an access outside of the captured bytes, and every
    subtraction of lengths through [minus], which reports a wrap-around.

    Environment, arbitrary functions in [env]: decoding of LpPacket, Interest and Data and
    the textual form of Interests and names (ndn-cxx), inet_ntop(AF_INET6).  The name filter
    (std::regex) is an arbitrary predicate on URIs.  Not modelled: capturing itself (run,
    L97-178) and the alignment of the header structures. *)
From Verif Require Import Base TlvModel PingModel.
From Coq Require Import Ascii String List.
Import ListNotations.
Local Open Scope nat_scope.
Local Open Scope list_scope.

(** * Text *)
Definition text := list N.
Definition str (s : string) : text := map N_of_ascii (list_ascii_of_string s).
(** decimal; lengths and numbers are below 2^64 *)
Definition dec (n : nat) : text := to_string (N.of_nat n).
(** ndn::AsHex: 0x and lower-case digits without leading zeros *)
Fixpoint hex_aux (fuel : nat) (n : N) (acc : text) : text :=
  match fuel with
  | O => acc
  | S fuel' =>
      let d := (n mod 16)%N in
      let acc' := (if (d <? 10)%N then 48 + d else 87 + d)%N :: acc in
      if (n <? 16)%N then acc' else hex_aux fuel' (n / 16)%N acc'
  end.
Definition hex (n : N) : text := str "0x" ++ hex_aux 16 n [].

(** * Outcomes *)
Inductive outcome (A : Type) := Fine (a : A) | OutOfBounds | Wraparound.
Arguments Fine {A}. Arguments OutOfBounds {A}. Arguments Wraparound {A}.
Definition bind {A B} (x : outcome A) (f : A -> outcome B) : outcome B :=
  match x with Fine a => f a | OutOfBounds => OutOfBounds | Wraparound => Wraparound end.
Notation "x <- a ;; b" := (bind a (fun x => b)) (at level 100, a at next level, right associativity).

Definition minus (a b : nat) : outcome nat := if b <=? a then Fine (a - b) else Wraparound.

(** * OutputFormatter, ndndump.cpp L50-88; the delimiter is ", " (L199) *)
Record fmt := Fmt { f_text : text; f_isEmpty : bool; f_wantDelim : bool }.
Definition fmt0 : fmt := Fmt [] true false.
(** L59-66 *)
Definition addDelimiter (o : fmt) : fmt :=
  if f_isEmpty o then o else Fmt (f_text o) (f_isEmpty o) true.
(** L78-88 *)
Definition put (o : fmt) (v : text) : fmt :=
  Fmt (f_text o ++ (if f_wantDelim o then str ", " else []) ++ v) false false.

(** * The environment and the options *)
Inductive lp_view :=
| LpInvalid (what : text)                         (* lp::Packet::wireDecode throws *)
| LpPacket (fragIndex fragCount : N)              (* FragIndexField, FragCountField: not used *)
           (fragment : option (list N))           (* FragmentField *)
           (nack : option (text + text)).         (* NackField: decoding error, or its reason *)
Record env := Env {
  e_lp       : list N -> lp_view;                 (* wire encoding of the LpPacket *)
  e_interest : list N -> text + (name * text);    (* error, or the name and operator<< *)
  e_data     : list N -> text + name;
  e_uri      : name -> text;                      (* Name::toUri and operator<< *)
  e_ntop6    : list N -> text
}.
Inductive link_type := DltEther | DltSll | DltPpp.
(** ndndump.hpp L103-121 *)
Record dump_opts := DumpOpts {
  o_link      : link_type;
  o_filter    : option (text -> bool);
  o_timestamp : bool
}.

Section Dump.
Variable E : env.
Variable O : dump_opts.
Variable cap : list N.        (* the captured bytes *)

Definition rd (i : nat) : outcome N :=
  match nth_error cap i with Some b => Fine b | None => OutOfBounds end.
(** a 16-bit field in network byte order *)
Definition rd16 (i : nat) : outcome N := a <- rd i ;; b <- rd (i + 1) ;; Fine (a * 256 + b)%N.
Definition rd_range (i n : nat) : outcome (list N) :=
  if i + n <=? length cap then Fine (firstn n (skipn i cap)) else OutOfBounds.

(** Block::fromBuffer (ndn-cxx): type and wire encoding of the first element of a buffer *)
Definition first_block (l : list N) : option (N * list N) :=
  match read_tlv l with
  | Some (t, _, rest) => Some (t, firstn (length l - length rest) l)
  | None => None
  end.
(** The buffer is [n] bytes at offset [i].  If it is not captured completely, reading the
    element may run out of it; simplified: an invalid header there also counts as such. *)
Definition from_buffer (i n : nat) : outcome (option (N * list N)) :=
  if i + n <=? length cap then Fine (first_block (firstn n (skipn i cap)))
  else match first_block (skipn i cap) with
       | Some b => Fine (Some b)
       | None => OutOfBounds
       end.

(** ndndump.cpp L601-609 *)
Definition matchesFilter (n : name) : bool :=
  match o_filter O with None => true | Some f => f (e_uri E n) end.

Definition TInterest : N := 5.
Definition TDataPacket : N := 6.
Definition TLpPacket : N := 100.

(** ndndump.cpp L555-598: the network packet; [nack]: the NackField of the LpPacket *)
Definition printNet (out : fmt) (nack : option (text + text)) (t : N) (wire : list N) : fmt * bool :=
  let out := addDelimiter out in
  let invalid what := (put (put out (str "invalid network packet: ")) what, true) in
  if (t =? TInterest)%N then
    match e_interest E wire with
    | inl what => invalid what
    | inr (n, txt) =>
        if negb (matchesFilter n) then (out, false)
        else match nack with
             | Some (inl what) => invalid what
             | Some (inr reason) => (put (put (put (put out (str "NACK (")) reason) (str "): ")) txt, true)
             | None => (put (put out (str "INTEREST: ")) txt, true)
             end
    end
  else if (t =? TDataPacket)%N then
    match e_data E wire with
    | inl what => invalid what
    | inr n => if negb (matchesFilter n) then (out, false)
               else (put (put out (str "DATA: ")) (e_uri E n), true)
    end
  else (put (put (put out (str "[Unsupported NDN packet type ")) (to_string t)) (str "]"), true).

(** ndndump.cpp L515-599 *)
Definition printNdn (out : fmt) (pkt len : nat) : outcome (fmt * bool) :=
  if len =? 0 then Fine (out, false)                                            (* L518 *)
  else
    let out := addDelimiter out in
    block <- from_buffer pkt len ;;
    match block with
    | None => Fine (put (put out (str "NDN truncated packet, length ")) (dec len), true)
    | Some (t, wire) =>
        if (t =? TLpPacket)%N then                                              (* L533 *)
          let out := put out (str "NDNLPv2") in
          match e_lp E wire with
          | LpInvalid what => Fine (put (put out (str " invalid packet: ")) what, true)
          | LpPacket _ _ None _ => Fine (put out (str " idle"), true)
          | LpPacket _ _ (Some frag) nack =>
              match first_block frag with
              | None => Fine (put out (str " fragment"), true)
              | Some (t', wire') => Fine (printNet out nack t' wire')
              end
          end
        else Fine (printNet out None t wire)
    end.

(** ndndump.cpp L483-513 *)
Definition printUdp (out : fmt) (pkt len : nat) : outcome (fmt * bool) :=
  let out := put (addDelimiter out) (str "UDP") in
  if len <? 8 then Fine (put (put out (str " truncated header, length ")) (dec len), true)
  else
    l <- rd16 (pkt + 4) ;;
    let udpLen := N.to_nat l in
    if udpLen <? 8 then Fine (put (put out (str " bad length ")) (dec udpLen), true)
    else if len <? udpLen then
      m <- minus udpLen len ;;
      Fine (put (put (put out (str " truncated packet, ")) (dec m)) (str " bytes missing"), true)
    else
      rest <- minus udpLen 8 ;;
      printNdn (put (put (addDelimiter out) (str "length ")) (dec rest)) (pkt + 8) rest.

(** ndndump.cpp L454-481 *)
Definition printTcp (out : fmt) (pkt len : nat) : outcome (fmt * bool) :=
  let out := put (addDelimiter out) (str "TCP") in
  if len <? 20 then Fine (put (put out (str " truncated header, length ")) (dec len), true)
  else
    b <- rd (pkt + 12) ;;
    let tcpHdrLen := N.to_nat (b / 16) * 4 in
    if tcpHdrLen <? 20 then Fine (put (put out (str " bad header length ")) (dec tcpHdrLen), true)
    else if len <? tcpHdrLen then
      m <- minus tcpHdrLen len ;;
      Fine (put (put (put out (str " truncated header, ")) (dec m)) (str " bytes missing"), true)
    else
      rest <- minus len tcpHdrLen ;;
      printNdn (put (put (addDelimiter out) (str "length ")) (dec rest)) (pkt + tcpHdrLen) rest.

(** ndndump.cpp L254-271 *)
Definition dispatchByIpProto (out : fmt) (pkt len : nat) (proto : N) : outcome (fmt * bool) :=
  let out := addDelimiter out in
  if (proto =? 59)%N then Fine (put out (str "[No next header]"), true)
  else if (proto =? 6)%N then printTcp out pkt len
  else if (proto =? 17)%N then printUdp out pkt len
  else Fine (put (put (put out (str "[Unsupported IP proto ")) (to_string proto)) (str "]"), true).

(** inet_ntop(AF_INET): dotted decimal *)
Definition ntop4 (a : list N) : text :=
  match a with
  | [w; x; y; z] => to_string w ++ str "." ++ to_string x ++ str "." ++ to_string y ++ str "." ++ to_string z
  | _ => str "???"
  end.

(** ndndump.cpp L374-417; printIpAddress L362-372: inet_ntop does not fail *)
Definition printIp4 (out : fmt) (pkt len : nat) : outcome (fmt * bool) :=
  let out := put (addDelimiter out) (str "IP ") in
  if len <? 20 then Fine (put (put out (str "truncated header, length ")) (dec len), true)
  else
    b <- rd pkt ;;
    let ipv := (b / 16)%N in
    if negb (ipv =? 4)%N then Fine (put (put out (str "bad version ")) (to_string ipv), true)
    else
      let ipHdrLen := N.to_nat (b mod 16) * 4 in
      if ipHdrLen <? 20 then Fine (put (put out (str "bad header length ")) (dec ipHdrLen), true)
      else
        l <- rd16 (pkt + 2) ;;
        let ipLen := N.to_nat l in
        if ipLen <? ipHdrLen then Fine (put (put out (str "bad length ")) (dec ipLen), true)
        else if len <? ipLen then
          m <- minus ipLen len ;;
          Fine (put (put (put out (str "truncated packet, ")) (dec m)) (str " bytes missing"), true)
        else
          src <- rd_range (pkt + 12) 4 ;;
          dst <- rd_range (pkt + 16) 4 ;;
          let out := put (put (put out (ntop4 src)) (str " > ")) (ntop4 dst) in
          rest <- minus len ipHdrLen ;;
          proto <- rd (pkt + 9) ;;
          dispatchByIpProto out (pkt + ipHdrLen) rest proto.

(** ndndump.cpp L419-452 *)
Definition printIp6 (out : fmt) (pkt len : nat) : outcome (fmt * bool) :=
  let out := put (addDelimiter out) (str "IP6 ") in
  if len <? 40 then Fine (put (put out (str "truncated header, length ")) (dec len), true)
  else
    b <- rd pkt ;;
    let ipv := (b / 16)%N in
    if negb (ipv =? 6)%N then Fine (put (put out (str "bad version ")) (to_string ipv), true)
    else
      rest <- minus len 40 ;;
      l <- rd16 (pkt + 4) ;;
      let payloadLen := N.to_nat l in
      if rest <? payloadLen then
        m <- minus payloadLen rest ;;
        Fine (put (put (put out (str "truncated payload, ")) (dec m)) (str " bytes missing"), true)
      else
        src <- rd_range (pkt + 8) 16 ;;
        dst <- rd_range (pkt + 24) 16 ;;
        let out := put (put (put out (e_ntop6 E src)) (str " > ")) (e_ntop6 E dst) in
        nxt <- rd (pkt + 6) ;;
        dispatchByIpProto out (pkt + 40) rest nxt.

(** ndndump.cpp L234-252 *)
Definition dispatchByEtherType (out : fmt) (pkt len : nat) (etherType : N) : outcome (fmt * bool) :=
  let out := addDelimiter out in
  if (etherType =? 2048)%N then printIp4 out pkt len                       (* 0x0800 *)
  else if (etherType =? 34525)%N then printIp6 out pkt len                 (* 0x86dd *)
  else if (etherType =? 34340)%N || (etherType =? 30583)%N then            (* 0x8624, 0x7777 *)
    printNdn (put out (str "Ethernet")) pkt len
  else Fine (put (put (put out (str "[Unsupported ethertype ")) (hex etherType)) (str "]"), true).

(** ndndump.cpp L273-288 *)
Definition printEther (out : fmt) (pkt len : nat) : outcome (fmt * bool) :=
  if len <? 14 then Fine (put (put out (str "Truncated Ethernet frame, length ")) (dec len), true)
  else
    rest <- minus len 14 ;;
    t <- rd16 (pkt + 12) ;;
    dispatchByEtherType out (pkt + 14) rest t.

(** ndndump.cpp L290-306 *)
Definition printLinuxSll (out : fmt) (pkt len : nat) : outcome (fmt * bool) :=
  if len <? 16 then Fine (put (put out (str "Truncated LINUX_SLL frame, length ")) (dec len), true)
  else
    rest <- minus len 16 ;;
    t <- rd16 (pkt + 14) ;;
    dispatchByEtherType out (pkt + 16) rest t.

(** ndndump.cpp L330-359: from the protocol field *)
Definition printPppProto (out : fmt) (pkt len : nat) : outcome (fmt * bool) :=
  b <- rd pkt ;;
  x <- (if N.odd b then                                                    (* L331-335 *)
          len1 <- minus len 1 ;; Fine (b, (pkt + 1, len1))
        else                                                               (* L336-341 *)
          c <- rd (pkt + 1) ;; len2 <- minus len 2 ;; Fine ((b * 256 + c)%N, (pkt + 2, len2))) ;;
  let '(proto, (pkt, len)) := x in
  if (proto =? 119)%N then                                                 (* 0x0077 *)
    if len <? 2 then Fine (put out (str "Truncated NDN/PPP frame"), true)
    else
      rest <- minus len 2 ;;
      printNdn (put out (str "PPP")) (pkt + 2) rest
  else Fine (put (put (put out (str "[Unsupported PPP proto ")) (hex proto)) (str "]"), true).

(** ndndump.cpp L308-360 *)
Definition printPpp (out : fmt) (pkt len : nat) : outcome (fmt * bool) :=
  let truncated := Fine (put (put out (str "Truncated PPP frame, length ")) (dec len), true) in
  if len <? 2 then truncated
  else
    b0 <- rd pkt ;;
    (* && evaluates the second operand only if the first one is true *)
    framed <- (if (b0 =? 255)%N then b1 <- rd (pkt + 1) ;; Fine (b1 =? 3)%N else Fine false) ;;
    if (framed : bool) then
      if len <? 4 then truncated
      else rest <- minus len 2 ;; printPppProto out (pkt + 2) rest
    else printPppProto out pkt len.

(** ndndump.cpp L224-232; the fraction is padded to width 6 with zeros *)
Definition pad6 (t : text) : text := repeat 48%N (6 - length t) ++ t.
Definition printTimestamp (sec usec : N) : text :=
  to_string sec ++ str "." ++ pad6 (to_string usec) ++ str " ".

(** ndndump.cpp L180-222.  [len]: the length of the packet on the wire; caplen is the number
    of captured bytes.  Result: the line written to stdout, if any. *)
Definition printPacket (len : nat) (sec usec : N) : outcome (option text) :=
  let caplen := length cap in
  if caplen =? 0 then Fine (Some (str "[Invalid header: caplen=0]"))
  else if len =? 0 then Fine (Some (str "[Invalid header: len=0]"))
  else if len <? caplen then
    Fine (Some (str "[Invalid header: len(" ++ dec len ++ str ") < caplen(" ++ dec caplen ++ str ")]"))
  else
    r <- match o_link O with
         | DltEther => printEther fmt0 0 len
         | DltSll => printLinuxSll fmt0 0 len
         | DltPpp => printPpp fmt0 0 len
         end ;;
    if (snd r : bool)
    then Fine (Some ((if o_timestamp O then printTimestamp sec usec else []) ++ f_text (fst r)))
    else Fine None.
End Dump.
