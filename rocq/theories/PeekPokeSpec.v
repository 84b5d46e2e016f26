(** What it means that an Interest asks for a Data packet: terms for C60. *)
From Verif Require Import Base TlvModel PeekModel PeekPokeModel.

(** The name asked for is the name [n] of the packet, or its full name, which ends with the
    implicit digest [c]; and the packet may be used if fresh ones are required. *)
Definition asks_exactly (i : interest) (n : name) (c : component) (fresh : Z) : Prop :=
  (i_name i = n \/ (i_name i = n ++ [c] /\ c_type c = 1%N)) /\
  (i_mustBeFresh i = true -> (0 < fresh)%Z).

(** Nothing goes wrong: no timeout, Nack or failed registration.  Other consumers may send
    Interests. *)
Definition undisturbed (e : pp_event) : Prop :=
  match e with NpReg | NpInterest | NpOther _ | NpData => True | _ => False end.
Definition by_others (e : pp_event) : Prop := match e with NpOther _ => True | _ => False end.
