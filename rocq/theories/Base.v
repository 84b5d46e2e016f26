(** Common vocabulary: finite maps as association lists, packets. *)
From Coq Require Export List Bool NArith ZArith Lia Permutation.
From Coq Require Export ZifyBool ZifyNat ZifyN.
Export ListNotations.
Open Scope Z_scope.

(** * Maps with keys in [N]

    Stand-in for [std::map] / [std::unordered_map] keyed by segment number.
    [kset] overwrites in place or appends, [kdel] removes. *)
Section KMap.
  Context {A : Type}.
  Fixpoint kget (k : N) (m : list (N * A)) : option A :=
    match m with
    | [] => None
    | (k', a) :: m' => if N.eqb k k' then Some a else kget k m'
    end.
  Definition kmem (k : N) (m : list (N * A)) : bool :=
    match kget k m with Some _ => true | None => false end.
  Fixpoint kset (k : N) (a : A) (m : list (N * A)) : list (N * A) :=
    match m with
    | [] => [(k, a)]
    | (k', a') :: m' => if N.eqb k k' then (k, a) :: m' else (k', a') :: kset k a m'
    end.
  Definition kdel (k : N) (m : list (N * A)) : list (N * A) :=
    filter (fun e => negb (N.eqb k (fst e))) m.
  Definition keys (m : list (N * A)) : list N := map fst m.
End KMap.

(** * Packets *)

(** Nack reasons, as far as the code distinguishes them (ndn::lp::NackReason). *)
Inductive nack_reason :=
| NrNone | NrCongestion | NrDuplicate | NrNoRoute | NrOther (code : N).

(** FinalBlockId of a Data packet. [FbiInvalid]: present but not a segment
    component, so that [Component::toSegment] throws (ndn-cxx). *)
Inductive fbi := FbiAbsent | FbiSegment (n : N) | FbiInvalid.

(** The parts of a segment's Data packet that the chunk consumer looks at. *)
Record data := Data {
  d_content : list N;      (* payload bytes *)
  d_fbi     : fbi;         (* FinalBlockId *)
  d_mark    : bool;        (* congestion mark > 0 *)
  d_appnack : bool         (* ContentType == Nack *)
}.

Definition count {A} (p : A -> bool) (l : list A) : Z :=
  Z.of_nat (length (filter p l)).

(** Proof-mode hygiene only: keep arithmetic folded. *)
Global Arguments Z.add : simpl never.
Global Arguments Z.sub : simpl never.
Global Arguments Z.mul : simpl never.
Global Arguments Z.opp : simpl never.
Global Arguments Z.max : simpl never.
Global Arguments Z.min : simpl never.
Global Arguments Z.pow : simpl never.
Global Arguments Z.leb : simpl never.
Global Arguments Z.ltb : simpl never.
Global Arguments Z.eqb : simpl never.
Global Arguments N.add : simpl never.
Global Arguments N.sub : simpl never.
Global Arguments N.mul : simpl never.
Global Arguments N.max : simpl never.
Global Arguments N.min : simpl never.
Global Arguments N.leb : simpl never.
Global Arguments N.ltb : simpl never.
Global Arguments N.eqb : simpl never.
Global Arguments count : simpl never.
