(** ndnpeek and ndnpoke together: the Interest that ndnpeek sends, the Data packet that ndnpoke
    publishes, and a network between them.

    Environment (ndn-cxx, forwarders): an Interest is delivered to ndnpoke only if the name
    given to setInterestFilter is a prefix of the name of the Interest; a Data packet is
    delivered to ndnpeek only if it satisfies the Interest.  The network may delay, lose and
    repeat packets and bring Interests of others, but nobody else publishes Data that satisfies
    the Interest. *)
From Verif Require Import Base TlvModel PeekModel.

(** * The Interest *)
Definition TParametersDigest : N := 2.
Definition TAppParameters : N := 36.

(** ndnpeek.hpp L47-62, the options that determine the Interest *)
Record peek_request := PeekRequest {
  pr_name        : name;
  pr_canBePrefix : bool;
  pr_mustBeFresh : bool;
  pr_hint        : list name;
  pr_lifetime    : Z;
  pr_hopLimit    : option N;
  pr_params      : option (list N)
}.
Record full_interest := FullInterest {
  fi_interest : interest;
  fi_hint     : list name;
  fi_lifetime : Z;
  fi_hopLimit : option N;
  fi_params   : option (list N)
}.

Definition is_params_digest (c : component) : bool := N.eqb (c_type c) TParametersDigest.
(** Interest::addOrReplaceParametersDigestComponent (ndn-cxx) *)
Fixpoint put_params_digest (n : name) (c : component) : name :=
  match n with
  | [] => [c]
  | x :: n' => if is_params_digest x then c :: n' else x :: put_params_digest n' c
  end.

Section Interest.
(** SHA-256, an arbitrary function here *)
Variable sha256 : list N -> list N.

(** ndnpeek.cpp L61-80.  [None]: ndn-cxx throws, because the name has several
    ParametersSha256Digest components (Interest::setName) or has one although there are no
    ApplicationParameters (Interest::wireEncode); the exit status is 1 then. *)
Definition create_interest (r : peek_request) : option full_interest :=
  let made n := FullInterest (Interest n (pr_canBePrefix r) (pr_mustBeFresh r))
                             (pr_hint r) (pr_lifetime r) (pr_hopLimit r) (pr_params r) in
  let digests := length (filter is_params_digest (pr_name r)) in
  if Nat.ltb 1 digests then None
  else match pr_params r with
       | None => if Nat.eqb digests 0 then Some (made (pr_name r)) else None
       | Some p => Some (made (put_params_digest (pr_name r) (Comp TParametersDigest (sha256 (tlv TAppParameters p)))))
       end.
End Interest.

(** * The Data packet *)
Definition TMetaInfo : N := 20.
Definition TFreshness : N := 25.
Definition TFinalBlockId : N := 26.
Definition TSignatureInfo : N := 22.
Definition TSignatureValue : N := 23.

Section System.
Variable digest : packet -> component.
(** the values of SignatureInfo and SignatureValue that the KeyChain makes *)
Variable sign : packet -> list N * list N.

(** Data::wireEncode and MetaInfo::wireEncode (ndn-cxx); a ContentType other than 0 is not used *)
Definition data_elements (d : packet) : list (N * list N) :=
  [ (TName, flat_map (fun c => tlv (c_type c) (c_value c)) (k_name d));
    (TMetaInfo, (if Z.ltb 0 (k_fresh d) then tlv TFreshness (nni (Z.to_N (k_fresh d))) else []) ++
                match k_fbi d with
                | Some c => tlv TFinalBlockId (tlv (c_type c) (c_value c))
                | None => []
                end);
    (TContent, k_content d);
    (TSignatureInfo, fst (sign d));
    (TSignatureValue, snd (sign d)) ].
Definition data_wire (d : packet) : list N :=
  tlv TData (flat_map (fun e => tlv (fst e) (snd e)) (data_elements d)).
(** MAX_NDN_PACKET_SIZE, Face::put *)
Definition data_fits (d : packet) : bool := Nat.leb (length (data_wire d)) (8 * 1100).

(** * The programs and the network *)
Inductive pp_event :=
| NpReg | NpRegFail            (* answers to the registration of ndnpoke *)
| NpInterest                   (* the network brings the Interest of ndnpeek to ndnpoke *)
| NpOther (i : interest)       (* it brings another Interest to ndnpoke *)
| NpData                       (* it brings the Data packet of ndnpoke to ndnpeek *)
| NpNack (header : list N)     (* it brings a Nack to ndnpeek *)
| NpExpired                    (* the Interest of ndnpeek expires *)
| NpPeekTimer | NpPokeTimer.   (* the execution timeouts *)

Record pp_system := PpSystem { np_peek : peek; np_poke : poke }.

Section Step.
Variable i : interest.          (* the Interest of ndnpeek *)
Variable po : peek_opts.
Variable o : poke_opts.
Variable input : list N.

Definition to_poke (y : pp_system) (e : poke_event) : pp_system :=
  PpSystem (np_peek y) (poke_step digest data_fits o input (np_poke y) e).
Definition to_peek (y : pp_system) (e : peek_event) : pp_system :=
  PpSystem (peek_step po (np_peek y) e) (np_poke y).
(** Face::setInterestFilter (ndn-cxx), ndnpoke.cpp L55-58 *)
Definition poke_gets (y : pp_system) (j : interest) : pp_system :=
  if is_prefix_of (pp_name o) (i_name j) then to_poke y (PoInterest j) else y.

Definition pp_step (y : pp_system) (e : pp_event) : pp_system :=
  match e with
  | NpReg => to_poke y PoRegSuccess
  | NpRegFail => to_poke y PoRegFailure
  | NpInterest => poke_gets y i
  | NpOther j => poke_gets y j
  | NpData => match pp_sent (np_poke y) with
              | d :: _ => if matches_data digest i d then to_peek y (PeData (data_wire d)) else y
              | [] => y
              end
  | NpNack h => to_peek y (PeNack h)
  | NpExpired => to_peek y PeExpired
  | NpPeekTimer => to_peek y PeTimer
  | NpPokeTimer => to_poke y PoTimer
  end.
Definition pp_run (es : list pp_event) : pp_system :=
  fold_left pp_step es (PpSystem (peek_start po) (poke_start data_fits o input)).
End Step.
End System.
