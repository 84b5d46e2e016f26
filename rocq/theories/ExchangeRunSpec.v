(** Vocabulary for ndnpeek and ndnpoke as programs that talk to each other. *)
From Verif Require Import Base TlvModel TlvProofs PeekModel PeekPokeModel PeekWireModel DumpModel PeekRunModel PeekRunSpec PairRunSpec.
From Coq Require Import String List.
Import ListNotations.
Local Open Scope Z_scope.
Local Open Scope list_scope.

(** ndnpeek gets only Data that this ndnpoke has sent *)
Definition only_published (sign : packet -> list N * list N) (sent : list packet) (es : list (Z * peek_happens)) : Prop :=
  forall t w, In (t, KEvent (PeData w)) es -> exists d, In d sent /\ w = data_wire sign d.

(** ndnpeek is asked for the packet [d], by its name or by its full name with the digest [c], and
    for fresh packets only if [d] is fresh for some time *)
Record asks_for (a : peek_args) (d : packet) (c : component) : Prop := AsksFor {
  af_name : ka_name a = Some (k_name d) \/ (ka_name a = Some (k_name d ++ [c]) /\ c_type c = 1%N /\ comp_ok c);
  af_fresh : ka_fresh a = true -> 0 < k_fresh d;
  af_params : ka_params a = None /\ ka_paramsFile a = None
}.
(** before the Data comes: at most a timer that does not exist *)
Definition uneventful (a : peek_args) (e : Z * peek_happens) : Prop := ka_timeout a = None /\ snd e = KEvent PeTimer.
(** before the registration of ndnpoke, and after it *)
Definition early (e : poke_happens) : Prop := match e with OInterest _ | OTimer => True | _ => False end.
Definition harmless (b : poke_args) (e : poke_happens) : Prop :=
  match e with OInterest _ | ORegSuccess | ORegFailure _ => True | OTimer => oa_timeout b = None | OFails _ => False end.
