(** Model of tools/peek/ndnpeek/ndnpeek.{hpp,cpp} and tools/peek/ndnpoke/ndnpoke.{hpp,cpp}.

    Environment (ndn-cxx): the Face calls at most one of the three callbacks of an Interest,
    at most once, and none after its cancellation.  setInterestFilter calls one of onSuccess
    and onFailure; Interests are delivered only after onSuccess and only until the handle is
    cancelled.  A cancelled timer does not fire.  Not modelled: messages on stderr (--verbose),
    signatures, the unregistration command. *)
From Verif Require Import Base TlvModel.

(** * Packets as received *)

Definition TData : N := 6.
Definition TContent : N := 21.
Definition TNack : N := 800.         (* 0x0320 *)
Definition TNackReason : N := 801.   (* 0x0321 *)

Definition find_elem (t : N) (es : list (N * list N)) : option (list N) :=
  match find (fun e => N.eqb (fst e) t) es with Some (_, v) => Some v | None => None end.

(** Data::getContent().value_bytes() of a received packet (ndn-cxx data.cpp): the value of
    the Content element, empty if there is none *)
Definition content_of_wire (w : list N) : list N :=
  match read_tlv w with
  | Some (_, v, _) => match parse_value v with
                      | Some es => match find_elem TContent es with Some c => c | None => [] end
                      | None => []
                      end
  | None => []
  end.

(** lp::NackHeader::wireDecode (ndn-cxx nack-header.cpp): the first element if it is a
    NackReason, else none *)
Definition nack_code (w : list N) : N :=
  match read_tlv w with
  | Some (_, v, _) => match parse_value v with
                      | Some ((t, r) :: _) => if N.eqb t TNackReason then of_be r else 0%N
                      | _ => 0%N
                      end
  | None => 0%N
  end.
(** NackHeader::getReason and operator<<(NackReason), followed by std::endl *)
Definition reason_text (code : N) : list N :=
  (if N.eqb code 50 then [67; 111; 110; 103; 101; 115; 116; 105; 111; 110]          (* Congestion *)
   else if N.eqb code 100 then [68; 117; 112; 108; 105; 99; 97; 116; 101]           (* Duplicate *)
   else if N.eqb code 150 then [78; 111; 82; 111; 117; 116; 101]                    (* NoRoute *)
   else [78; 111; 110; 101])%N.                                                     (* None *)
Definition newline : N := 10.

(** * ndnpeek *)

(** ndnpeek.hpp L47-62, the options that matter after the Interest was sent *)
Record peek_opts := PeekOpts {
  pk_payloadOnly : bool;
  pk_timeout     : bool       (* an execution timeout was given *)
}.

(** ndnpeek.hpp L69-75 *)
Inductive peek_result := PkData | PkUnknown | PkTimeout | PkNack.
(** ndnpeek/main.cpp L198: the exit status *)
Definition peek_status (r : peek_result) : Z :=
  match r with PkData => 0 | PkUnknown => 1 | PkTimeout => 3 | PkNack => 4 end.

Record peek := Peek {
  pk_pending : bool;               (* m_pendingInterest: the Face holds the callbacks *)
  pk_timer   : bool;               (* m_timeoutEvent is scheduled *)
  pk_result  : peek_result;        (* m_result *)
  pk_out     : list (list N)       (* what was written to stdout, one entry per callback *)
}.

Inductive peek_event :=
| PeData (wire : list N)
| PeNack (header : list N)
| PeExpired            (* the lifetime of the Interest ends *)
| PeTimer.             (* the execution timeout ends *)

(** ndnpeek.cpp L43-59 *)
Definition peek_start (o : peek_opts) : peek := Peek true (pk_timeout o) PkUnknown [].

(** ndnpeek.cpp L89-107 *)
Definition peek_onData (o : peek_opts) (s : peek) (w : list N) : peek :=
  Peek (pk_pending s) false PkData
       (pk_out s ++ [if pk_payloadOnly o then content_of_wire w else w]).
(** ndnpeek.cpp L109-128 *)
Definition peek_onNack (o : peek_opts) (s : peek) (w : list N) : peek :=
  Peek (pk_pending s) false PkNack
       (pk_out s ++ [if pk_payloadOnly o then reason_text (nack_code w) ++ [newline] else w]).
(** ndnpeek.cpp L130-139 *)
Definition peek_onTimeout (s : peek) : peek := Peek (pk_pending s) false PkTimeout (pk_out s).

(** The Face forgets the Interest when it calls one of the callbacks. *)
Definition peek_forget (s : peek) : peek := Peek false (pk_timer s) (pk_result s) (pk_out s).

Definition peek_step (o : peek_opts) (s : peek) (e : peek_event) : peek :=
  match e with
  | PeData w => if pk_pending s then peek_onData o (peek_forget s) w else s
  | PeNack w => if pk_pending s then peek_onNack o (peek_forget s) w else s
  | PeExpired => if pk_pending s then peek_onTimeout (peek_forget s) else s
  | PeTimer => if pk_timer s                                                 (* L52-55 *)
               then peek_onTimeout (Peek false false (pk_result s) (pk_out s))
               else s
  end.
Definition peek_run (o : peek_opts) (es : list peek_event) : peek := fold_left (peek_step o) es (peek_start o).
(** face.processEvents() returns when there is nothing left to wait for, ndnpeek/main.cpp L196 *)
Definition peek_ended (s : peek) : bool := negb (pk_pending s) && negb (pk_timer s).

(** * ndnpoke *)

(** ndnpoke.hpp L45-57 *)
Record poke_opts := PokeOpts {
  pp_name        : name;
  pp_fresh       : Z;
  pp_final       : bool;
  pp_unsolicited : bool;
  pp_timeout     : bool       (* an execution timeout was given *)
}.

(** ndnpoke.hpp L64-71 *)
Inductive poke_result := PpSent | PpUnknown | PpTimeout | PpRegFail.

(** The handle m_registeredPrefix as the Face sees it *)
Inductive poke_reg := RegNone | RegWaiting | RegActive | RegClosed.
Record poke := Poke {
  pp_reg    : poke_reg;
  pp_timer  : bool;               (* m_timeoutEvent is scheduled *)
  pp_result : poke_result;        (* m_result *)
  pp_crash  : bool;               (* an exception left the event loop *)
  pp_sent   : list packet         (* packets transmitted *)
}.

Inductive poke_event :=
| PoRegSuccess | PoRegFailure
| PoInterest (i : interest)
| PoTimer.

Section Poke.
Variable digest : packet -> component.
(** the encoded packet is within MAX_NDN_PACKET_SIZE; otherwise Face::put throws (ndn-cxx) *)
Variable fits : packet -> bool.

(** ndnpoke.cpp L61-77; [input]: standard input; L67: the last component exists since the
    name is not empty, main.cpp L124-127 *)
Definition poke_data (o : poke_opts) (input : list N) : packet :=
  Packet (pp_name o) input (if pp_final o then last_comp (pp_name o) else None) (pp_fresh o).

(** ndnpoke.cpp L79-88; in unsolicited mode Face::put throws only when the event loop runs,
    with the same exit status *)
Definition poke_send (s : poke) (d : packet) : poke :=
  if fits d then Poke (pp_reg s) (pp_timer s) PpSent (pp_crash s) (pp_sent s ++ [d])
  else Poke (pp_reg s) (pp_timer s) (pp_result s) true (pp_sent s).

(** ndnpoke.cpp L46-59 *)
Definition poke_start (o : poke_opts) (input : list N) : poke :=
  let s := Poke RegNone false PpUnknown false [] in
  if pp_unsolicited o then poke_send s (poke_data o input)
  else Poke RegWaiting false PpUnknown false [].

(** ndnpoke.cpp L90-105 *)
Definition poke_onInterest (o : poke_opts) (input : list N) (s : poke) (i : interest) : poke :=
  let d := poke_data o input in
  if matches_data digest i d then poke_send (Poke RegClosed false (pp_result s) (pp_crash s) (pp_sent s)) d
  else s.

Definition poke_step (o : poke_opts) (input : list N) (s : poke) (e : poke_event) : poke :=
  if pp_crash s then s else
  match e with
  | PoRegSuccess =>                                                        (* L107-124 *)
      match pp_reg s with
      | RegWaiting => Poke RegActive (pp_timeout o) (pp_result s) (pp_crash s) (pp_sent s)
      | _ => s
      end
  | PoRegFailure =>                                                        (* L126-131 *)
      match pp_reg s with
      | RegWaiting => Poke RegClosed (pp_timer s) PpRegFail (pp_crash s) (pp_sent s)
      | _ => s
      end
  | PoInterest i =>
      match pp_reg s with
      | RegActive => poke_onInterest o input s i
      | _ => s
      end
  | PoTimer =>                                                             (* L115-122 *)
      if pp_timer s then Poke RegClosed false PpTimeout (pp_crash s) (pp_sent s) else s
  end.
Definition poke_run (o : poke_opts) (input : list N) (es : list poke_event) : poke :=
  fold_left (poke_step o input) es (poke_start o input).
(** ndnpoke/main.cpp L155-168: the exit status, 1 after an exception *)
Definition poke_status (s : poke) : Z :=
  if pp_crash s then 1
  else match pp_result s with PpSent => 0 | PpUnknown => 1 | PpTimeout => 3 | PpRegFail => 5 end.
Definition poke_ended (s : poke) : bool :=
  pp_crash s || (match pp_reg s with RegWaiting | RegActive => false | _ => true end && negb (pp_timer s)).
End Poke.
