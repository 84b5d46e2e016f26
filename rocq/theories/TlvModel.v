(** NDN-TLV and names, as far as the tools depend on them.  Environment: this is the
    behaviour of ndn-cxx (tlv.hpp, block.cpp, name-component.cpp, name.cpp, interest.cpp),
    not of ndn-tools; it is modelled concretely so that encodings and decodings in the tools
    can be composed.  Bytes are numbers below 256. *)
From Verif Require Import Base.
Open Scope N_scope.

Definition is_byte (b : N) : Prop := b < 256.

(** [k] bytes, big endian *)
Fixpoint be (k : nat) (n : N) : list N :=
  match k with
  | O => []
  | S k' => be k' (n / 256) ++ [n mod 256]
  end.
Definition of_be (l : list N) : N := fold_left (fun a b => a * 256 + b) l 0.

(** TLV-TYPE and TLV-LENGTH numbers (ndn-cxx tlv.hpp writeVarNumber / readVarNumber) *)
Definition var_number (n : N) : list N :=
  if n <? 253 then [n]
  else if n <? 65536 then 253 :: be 2 n
  else if n <? 4294967296 then 254 :: be 4 n
  else 255 :: be 8 n.

Definition take_n (k : nat) (l : list N) : option (list N * list N) :=
  if Nat.leb k (length l) then Some (firstn k l, skipn k l) else None.

(** [None]: incomplete, or not the shortest encoding *)
Definition read_var (l : list N) : option (N * list N) :=
  match l with
  | [] => None
  | b :: l' =>
      if b <? 253 then Some (b, l')
      else if b =? 253 then
        match take_n 2 l' with Some (v, l2) => if of_be v <? 253 then None else Some (of_be v, l2) | None => None end
      else if b =? 254 then
        match take_n 4 l' with Some (v, l2) => if of_be v <? 65536 then None else Some (of_be v, l2) | None => None end
      else
        match take_n 8 l' with Some (v, l2) => if of_be v <? 4294967296 then None else Some (of_be v, l2) | None => None end
  end.

(** TLV-TYPE: 1 to 2^32 - 1 (tlv::readType) *)
Definition read_type (l : list N) : option (N * list N) :=
  match read_var l with
  | Some (t, l') => if (t =? 0) || (4294967296 <=? t) then None else Some (t, l')
  | None => None
  end.

(** one element: type and value *)
Definition tlv (t : N) (v : list N) : list N :=
  var_number t ++ var_number (N.of_nat (length v)) ++ v.

(** Block::fromBuffer / the Block constructor: the first element and what follows it *)
Definition read_tlv (l : list N) : option (N * list N * list N) :=
  match read_type l with
  | Some (t, l1) =>
      match read_var l1 with
      | Some (n, l2) =>
          if n <=? N.of_nat (length l2) then Some (t, firstn (N.to_nat n) l2, skipn (N.to_nat n) l2) else None
      | None => None
      end
  | None => None
  end.

(** Block::parse: all elements of a value; [fuel] at least the length suffices *)
Fixpoint read_all (fuel : nat) (l : list N) : option (list (N * list N)) :=
  match l with
  | [] => Some []
  | _ => match fuel with
         | O => None
         | S fuel' =>
             match read_tlv l with
             | Some (t, v, rest) =>
                 match read_all fuel' rest with Some es => Some ((t, v) :: es) | None => None end
             | None => None
             end
         end
  end.
Definition parse_value (v : list N) : option (list (N * list N)) := read_all (length v) v.

(** * Non-negative integers (tlv::writeNonNegativeInteger / readNonNegativeInteger) *)
Definition nni (n : N) : list N :=
  if n <? 256 then be 1 n
  else if n <? 65536 then be 2 n
  else if n <? 4294967296 then be 4 n
  else be 8 n.
Definition nni_size (k : nat) : bool := Nat.eqb k 1 || Nat.eqb k 2 || Nat.eqb k 4 || Nat.eqb k 8.

(** * Name components and names *)
Record component := Comp { c_type : N; c_value : list N }.
Definition name := list component.

Definition TGeneric : N := 8.
Definition TImplicitDigest : N := 1.
Definition TKeyword : N := 32.
Definition TSegment : N := 50.
Definition TVersion : N := 54.
Definition TName : N := 7.

Fixpoint bytes_eqb (a b : list N) : bool :=
  match a, b with
  | [], [] => true
  | x :: a', y :: b' => (x =? y) && bytes_eqb a' b'
  | _, _ => false
  end.
Definition comp_eqb (a b : component) : bool :=
  (c_type a =? c_type b) && bytes_eqb (c_value a) (c_value b).
Fixpoint name_eqb (a b : name) : bool :=
  match a, b with
  | [], [] => true
  | x :: a', y :: b' => comp_eqb x y && name_eqb a' b'
  | _, _ => false
  end.
Fixpoint is_prefix_of (a b : name) : bool :=
  match a, b with
  | [], _ => true
  | x :: a', y :: b' => comp_eqb x y && is_prefix_of a' b'
  | _ :: _, [] => false
  end.

(** Name[-1], Name::getPrefix(-1) *)
Definition last_comp (n : name) : option component := match rev n with c :: _ => Some c | [] => None end.
Definition drop_last (n : name) : name := removelast n.

(** naming conventions, name-component.cpp; decoding accepts both (the tools never call
    setConventionDecoding) *)
Inductive convention := CvTyped | CvMarker.
Definition MSegment : N := 0.
Definition MVersion : N := 253.

Definition number_comp (typ marker : N) (cv : convention) (n : N) : component :=
  match cv with
  | CvTyped => Comp typ (nni n)
  | CvMarker => Comp TGeneric (marker :: nni n)
  end.
(** Some n: the component is a number of this kind *)
Definition number_of (typ marker : N) (c : component) : option N :=
  if (c_type c =? typ) && nni_size (length (c_value c)) then Some (of_be (c_value c))
  else match c_value c with
       | m :: v => if (c_type c =? TGeneric) && (m =? marker) && nni_size (length v) then Some (of_be v) else None
       | [] => None
       end.

(** Component::fromSegment, isSegment / toSegment, and the same for versions *)
Definition segment_comp := number_comp TSegment MSegment.
Definition version_comp := number_comp TVersion MVersion.
Definition segment_of := number_of TSegment MSegment.
Definition version_of := number_of TVersion MVersion.
Definition is_segment (c : component) : bool := match segment_of c with Some _ => true | None => false end.
Definition is_version (c : component) : bool := match version_of c with Some _ => true | None => false end.
Definition ends_with_version (n : name) : bool :=
  match last_comp n with Some c => is_version c | None => false end.

(** Name::wireEncode and Name::wireDecode *)
Definition encode_name (n : name) : list N :=
  tlv TName (flat_map (fun c => tlv (c_type c) (c_value c)) n).
Definition decode_name (l : list N) : option name :=
  match read_tlv l with
  | Some (t, v, []) =>
      if t =? TName then
        match parse_value v with Some es => Some (map (fun e => Comp (fst e) (snd e)) es) | None => None end
      else None
  | _ => None
  end.

(** * Interests and Data *)
Record interest := Interest {
  i_name : name; i_canBePrefix : bool; i_mustBeFresh : bool
}.
Record packet := Packet {
  k_name    : name;
  k_content : list N;
  k_fbi     : option component;
  k_fresh   : Z             (* FreshnessPeriod in milliseconds *)
}.

(** Interest::matchesData; the full name of a Data packet ends with its digest, which is an
    arbitrary function here *)
Definition matches_data (digest : packet -> component) (i : interest) (d : packet) : bool :=
  if i_mustBeFresh i && (k_fresh d <=? 0)%Z then false
  else if Nat.eqb (length (i_name i)) (length (k_name d) + 1) then
    match last_comp (i_name i) with
    | Some c => (c_type c =? TImplicitDigest) && name_eqb (i_name i) (k_name d ++ [digest d])
    | None => false
    end
  else if i_canBePrefix i then is_prefix_of (i_name i) (k_name d)
  else name_eqb (i_name i) (k_name d).
