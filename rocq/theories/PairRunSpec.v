(** Vocabulary for ndnping and ndnpingserver as programs that talk to each other. *)
From Verif Require Import Base TlvModel TlvProofs PingModel PeekModel PeekPokeModel PeekWireSpec PutchunksModel DumpModel DissectSpec PingTextSpec
  PingRunModel PingRunSpec ServerRunModel ServerRunSpec.
From Coq Require Import String List.
Import ListNotations.
Local Open Scope Z_scope.
Local Open Scope list_scope.

(** the packet [w] is the Interest [i]: its elements are those of the NDN packet format *)
Definition carries (w : list N) (i : interest) : Prop :=
  exists es, interest_of w es /\ Forall (fun e => elem_ok (fst e) (snd e)) es /\
    has es 7 (flat_map (fun c => tlv (c_type c) (c_value c)) (i_name i)) /\ Forall comp_ok (i_name i) /\
    flag es 33 (i_canBePrefix i) /\ flag es 18 (i_mustBeFresh i).

Section Network.
Variables (a : ping_args) (prefix : name).
(** what happens to ndnping and what it sends; what happens to ndnpingserver and what it sends *)
Variables (es : list (Z * ping_happens)) (wire : list (Z * list N)).
Variables (ses : list (Z * server_happens)) (answers : list (Z * packet)).

(** ndnping gets only Data that this server has sent before *)
Definition only_answers : Prop :=
  forall t k, In (t, PhData k) es -> exists t' d, In (t', d) answers /\ t' <= t /\ k_name d = ping_name a prefix k.
(** the server gets only Interests that this ndnping has sent before, none of them twice *)
Definition asked : list name := flat_map (fun e => match snd e with VInterest i => [i_name i] | _ => [] end) ses.
Definition only_pings : Prop :=
  (forall t i, In (t, VInterest i) ses -> exists t' w, In (t', w) wire /\ t' <= t /\ carries w i) /\ NoDup asked.

(** every ping reaches the server, and its answer comes back before the ping times out *)
Definition all_arrive : Prop :=
  forall t w, In (t, w) wire -> exists t' i, In (t', VInterest i) ses /\ t <= t' /\ carries w i.
Definition all_return : Prop :=
  forall t w i k t' d, In (t, w) wire -> carries w i -> (k < 2 ^ 64)%N -> i_name i = ping_name a prefix k -> In (t', d) answers -> k_name d = i_name i ->
  exists t'', In (t'', PhData k) es /\ t < t'' < t + ms (ga_timeout a).
End Network.

(** how the output of ndnping ends: [tx] pings, [rx] answered, [nk] answered by a Nack *)
Definition says_at_end (u out : text) (tx rx nk : nat) : Prop :=
  exists front sn rc nc rest,
    out = front ++ LF ++ str "--- " ++ u ++ str " ping statistics ---" ++ LF ++
          sn ++ str " packets transmitted, " ++ rc ++ str " received, " ++ nc ++ str " nacked" ++ rest /\
    counts sn tx /\ counts rc rx /\ counts nc nk.
(** how the output of ndnpingserver ends *)
Definition processed (u out : text) (p : nat) : Prop :=
  exists front, out = front ++ unlines [ []; str "--- " ++ u ++ str " ping server statistics ---"; to_string (N.of_nat p) ++ str " packets processed" ].

(** the server is started with options that it accepts, for that prefix, and is left alone *)
Record serves (parse_name : text -> option name) (start_error : Z -> bool) (b : server_args) (n : name) (ses : list (Z * server_happens)) : Prop := Serves {
  sv_options : va_help b = false /\ va_version b = false /\ va_prefix b <> [] /\ parse_name (va_prefix b) = Some n;
  sv_numbers : 0 <= va_fresh b /\ 0 <= va_max b /\ 0 <= va_size b /\ start_error (va_size b) = false;
  sv_alone : forall t x, In (t, x) ses -> x = VRegSuccess \/ exists i, x = VInterest i;
  (* -p: not less than the number of Interests *)
  sv_limit : va_max b = 0 \/ Z.of_nat (length (asked ses)) <= va_max b
}.
