(** Model of tools/chunks/putchunks/producer.{hpp,cpp}.

    Environment: the Segmenter, MetadataObject and the Face of ndn-cxx behave as in the
    definitions below.  Not modelled: signatures, prefix registration, messages, the limit on
    the size of a packet. *)
From Verif Require Import Base TlvModel.

Record popts := POpts {
  po_size  : nat;    (* maxSegmentSize, producer.hpp L56 *)
  po_fresh : Z       (* freshnessPeriod, producer.hpp L55 *)
}.

(** producer.hpp L90-94 members *)
Record producer := Producer {
  pr_prefix  : name;
  pr_vprefix : name;
  pr_store   : list packet
}.

(** Segmenter::segment (ndn-cxx), producer.cpp L58-59: cut the input into pieces of [size]
    bytes, at least one piece.  [fuel] at least the length of the input suffices. *)
Fixpoint split (fuel size : nat) (l : list N) : list (list N) :=
  match fuel with
  | O => [l]
  | S fuel' => if Nat.leb (length l) size then [l]
               else firstn size l :: split fuel' size (skipn size l)
  end.
Definition pieces (size : nat) (input : list N) : list (list N) := split (length input) size input.

(** piece number [k] of [last] + 1 *)
Definition make_segment (cv : convention) (vprefix : name) (fresh : Z) (last : N) (k : N) (content : list N) : packet :=
  Packet (vprefix ++ [segment_comp cv k]) content (Some (segment_comp cv last)) fresh.
Fixpoint make_segments (cv : convention) (vprefix : name) (fresh : Z) (last : N) (k : N) (l : list (list N)) : list packet :=
  match l with
  | [] => []
  | c :: l' => make_segment cv vprefix fresh last k c :: make_segments cv vprefix fresh last (k + 1)%N l'
  end.

(** producer.cpp L40-90; [now]: the version number that appendVersion() takes from the
    clock; [cv]: the naming convention, main.cpp L118-127 *)
Definition make_producer (cv : convention) (now : N) (o : popts) (prefix : name) (input : list N) : producer :=
  let '(pre, vpre) :=
    if ends_with_version prefix then (drop_last prefix, prefix)               (* L46-49 *)
    else (prefix, prefix ++ [version_comp cv now]) in                         (* L50-53 *)
  let l := pieces (po_size o) input in
  Producer pre vpre (make_segments cv vpre (po_fresh o) (N.of_nat (length l - 1)) 0 l).

(** MetadataObject::makeDiscoveryInterest (ndn-cxx): append the keyword "metadata" *)
Definition metadata_comp : component := Comp TKeyword [109; 101; 116; 97; 100; 97; 116; 97]%N.
Definition discovery_name (prefix : name) : name := prefix ++ [metadata_comp].
Definition discovery_interest (prefix : name) : interest := Interest (discovery_name prefix) true true.

Inductive reply := RpData (p : packet) | RpNack.

(** MetadataObject::makeData (ndn-cxx): version and segment number are appended to the name
    of the Interest; the freshness period is 10 ms *)
Definition metadata_packet (cv : convention) (now : N) (vprefix : name) (iname : name) : packet :=
  Packet (iname ++ [version_comp cv now; segment_comp cv 0]) (encode_name vprefix) None 10.

(** producer.cpp L98-122 *)
Definition processDiscoveryInterest (cv : convention) (now : N) (p : producer) (i : interest) : reply :=
  if negb (i_canBePrefix i) then RpNack
  else RpData (metadata_packet cv now (pr_vprefix p) (i_name i)).

(** producer.cpp L124-159 *)
Definition processSegmentInterest (digest : packet -> component) (p : producer) (i : interest) : reply :=
  let n := i_name i in
  let seg := match last_comp n with
             | Some c => if Nat.eqb (length n) (length (pr_vprefix p) + 1) then segment_of c else None
             | None => None
             end in
  match seg with
  | Some k => match nth_error (pr_store p) (N.to_nat k) with Some d => RpData d | None => RpNack end
  | None => match pr_store p with
            | d :: _ => if matches_data digest i d then RpData d else RpNack
            | [] => RpNack                        (* L127: cannot happen *)
            end
  end.

(** The Interest filters, producer.cpp L68-81, in the order of installation: the Face calls
    the handler of every filter that matches. *)
Definition producer_replies (digest : packet -> component) (cv : convention) (now : N) (p : producer) (i : interest) : list reply :=
  (if is_prefix_of (pr_vprefix p) (i_name i) then [processSegmentInterest digest p i] else []) ++
  (if name_eqb (i_name i) (pr_prefix p) then [processSegmentInterest digest p i] else []) ++
  (if is_prefix_of (discovery_name (pr_prefix p)) (i_name i) then [processDiscoveryInterest cv now p i] else []).
