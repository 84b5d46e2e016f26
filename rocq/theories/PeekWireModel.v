(** The Interest of ndnpeek as it is sent.

    Environment (ndn-cxx): Interest::wireEncode, Face::expressInterest.  The Nonce is chosen by
    ndn-cxx: four arbitrary octets. *)
From Verif Require Import Base TlvModel PeekPokeModel.

Definition TInterest : N := 5.
Definition TNonce : N := 10.
Definition TLifetime : N := 12.
Definition TMustBeFresh : N := 18.
Definition TForwardingHint : N := 30.
Definition TCanBePrefix : N := 33.
Definition THopLimit : N := 34.

(** Interest::wireEncode: the lifetime is left out if it has the default value *)
Definition interest_fields (nonce : list N) (f : full_interest) : list (N * list N) :=
  [(TName, flat_map (fun c => tlv (c_type c) (c_value c)) (i_name (fi_interest f)))] ++
  (if i_canBePrefix (fi_interest f) then [(TCanBePrefix, [])] else []) ++
  (if i_mustBeFresh (fi_interest f) then [(TMustBeFresh, [])] else []) ++
  match fi_hint f with [] => [] | h => [(TForwardingHint, flat_map encode_name h)] end ++
  [(TNonce, nonce)] ++
  (if Z.eqb (fi_lifetime f) 4000 then [] else [(TLifetime, nni (Z.to_N (fi_lifetime f)))]) ++
  match fi_hopLimit f with Some h => [(THopLimit, [h])] | None => [] end ++
  match fi_params f with Some p => [(TAppParameters, p)] | None => [] end.
Definition interest_wire (nonce : list N) (f : full_interest) : list N :=
  tlv TInterest (flat_map (fun e => tlv (fst e) (snd e)) (interest_fields nonce f)).

(** ndnpeek.cpp L43-59, Face::expressInterest.  [None]: an exception, exit status 1,
    ndnpeek/main.cpp L200-203: no Interest can be made, or it is longer than
    MAX_NDN_PACKET_SIZE. *)
Definition peek_send (sha256 : list N -> list N) (nonce : list N) (r : peek_request) : option (list N) :=
  match create_interest sha256 r with
  | Some f => if Nat.leb (length (interest_wire nonce f)) (8 * 1100) then Some (interest_wire nonce f) else None
  | None => None
  end.
