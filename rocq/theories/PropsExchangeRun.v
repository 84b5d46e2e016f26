(** ndnpeek and ndnpoke as programs that talk to each other: C83. *)
From Verif Require Import Base TlvModel TlvProofs PeekModel PeekPokeModel PeekWireModel PeekWireSpec DumpModel DissectSpec PeekRunModel PeekRunSpec PairRunSpec
  ExchangeRunSpec ExchangeRunProofs.
From Coq Require Import String List ZArith Lia.
Import ListNotations.
Local Open Scope Z_scope.
Local Open Scope list_scope.

(** * C83 What ndnpeek writes is what ndnpoke was given *)
Section Environment.
(** the environment of ndnpeek, as in C73 *)
Variables (sha256 : list N -> list N) (nonce : list N) (interest_text : full_interest -> text) (wire_name : list N -> text) (usage version : text)
  (base64 : text -> text + list N) (open_file : text -> text + (text + list N)) (face_error : option text) (create_error send_error : text).
(** the environment of ndnpoke, as in C74 *)
Variables (digest : packet -> component) (sign : packet -> list N * list N) (poke_interest_text : interest -> text) (data_text : packet -> text)
  (poke_usage poke_version : text) (parse_name : text -> text + name) (signing_error : text -> option text) (start_error : option text)
  (put_error : text) (put_later : bool).
Notation ndnpeek := (peek_program sha256 nonce interest_text wire_name usage version base64 open_file face_error create_error send_error).
Notation ndnpoke := (poke_program digest sign poke_interest_text data_text poke_usage poke_version parse_name signing_error start_error put_error put_later).

(** ndnpeek gets no Data that ndnpoke has not sent; otherwise anything may happen to both.  If
    ndnpeek succeeds then ndnpoke has succeeded and published its input in one packet, and the
    standard output of ndnpeek is with -p exactly this input and without -p exactly this packet.
    Otherwise it is empty, unless a Nack was received (exit status 4). *)
Theorem C83_output :
  forall (a : peek_args) (t0 : Z) (es : list (Z * peek_happens)) (cmd : text + poke_args) (input : list N) (pes : list poke_happens),
  let r := ndnpeek (inr a) t0 es in
  let p := ndnpoke cmd input pes in
  Forall (fun e => t0 <= fst e) es -> only_published sign (po_sent p) es ->
  ka_help a = false -> ka_version a = false ->
  (rr_status r = Some 0 ->
     exists b d, cmd = inr b /\ poke_publishes parse_name signing_error b input d /\ po_sent p = [d] /\ rr_status (po_run p) = Some 0 /\
       rr_stdout r = if ka_payload a then input else data_wire sign d) /\
  (rr_status r <> Some 0 -> rr_status r <> Some 4 -> rr_stdout r = []).
Proof.
  exact (exchange_right sha256 nonce interest_text wire_name usage version base64 open_file face_error create_error send_error
    digest sign poke_interest_text data_text poke_usage poke_version parse_name signing_error start_error put_error put_later).
Qed.

(** ndnpoke can publish its input, ndnpeek asks for this packet, by its name or its full name.
    If the prefix gets registered, the Interest of ndnpeek arrives afterwards and the packet comes
    back, then both succeed and the input is written. *)
Theorem C83_succeeds :
  forall (a : peek_args) (rq : peek_request) (w : list N) (t0 : Z) (quiet : list (Z * peek_happens)) (t : Z) (es : list (Z * peek_happens))
    (b : poke_args) (input : list N) (d : packet) (e1 : list poke_happens) (i : interest) (e2 e3 : list poke_happens),
  let p := ndnpoke (inr b) input (e1 ++ ORegSuccess :: e2 ++ OInterest i :: e3) in
  let r := ndnpeek (inr a) t0 (quiet ++ (t, KEvent (PeData (data_wire sign d))) :: es) in
  oa_help b = false -> oa_version b = false -> oa_unsolicited b = false -> start_error = None ->
  poke_publishes parse_name signing_error b input d -> data_fits sign d = true ->
  Forall comp_ok (k_name d) -> (forall c, In c (k_name d) -> c_type c <> 2%N) ->
  ka_help a = false -> ka_version a = false -> face_error = None ->
  peek_asks base64 open_file a rq -> asks_for a d (digest d) -> peek_send sha256 nonce rq = Some w ->
  carries w i -> Forall early e1 -> Forall (harmless b) e2 -> Forall (uneventful a) quiet -> t0 <= t ->
  po_sent p = [d] /\ rr_status (po_run p) = Some 0 /\
  rr_status r = Some 0 /\ rr_stdout r = if ka_payload a then input else data_wire sign d.
Proof.
  exact (exchange_succeeds sha256 nonce interest_text wire_name usage version base64 open_file face_error create_error send_error
    digest sign poke_interest_text data_text poke_usage poke_version parse_name signing_error start_error put_error put_later).
Qed.
End Environment.
Print Assumptions C83_output.
Print Assumptions C83_succeeds.

(** "hi" is published as /A and requested with -p -f; before, ndnpoke gets an Interest for /A/1 that
    it cannot satisfy. *)
Definition c83_sign : packet -> list N * list N := fun _ => ([27; 1; 0], repeat 0 32)%N.
Definition c83_name : name := [Comp 8 (str "A")].
Definition c83_asked : peek_args := PeekArgs false false true true false true (Some c83_name) [] (Some 10) 4000 None None None.
Definition c83_peek := peek_program (fun _ => repeat 7%N 32) [1; 2; 3; 4]%N (fun _ => str "/A") (fun _ => str "/A") [] []
  (fun _ => inl (str "bad")) (fun _ => inl (str "No such file")) None (str "create") (str "send") (inr c83_asked).
Definition c83_offers : poke_args := PokeArgs false false false false true (Some (str "A")) 1000 [] None.
Definition c83_poke := poke_program (fun _ => Comp 1 (repeat 7%N 32)) c83_sign (fun _ => str "interest") (fun _ => str "packet") [] []
  (fun t => inr [Comp 8 t]) (fun _ => None) None (str "too long") false (inr c83_offers) (str "hi").
Definition c83_packet : packet := Packet c83_name (str "hi") (Some (Comp 8 (str "A"))) 1000.
Definition c83_arrives : interest := Interest c83_name false true.
Definition c83_happens : list poke_happens :=
  [OTimer] ++ ORegSuccess :: [OInterest (Interest (c83_name ++ [Comp 8 (str "1")]) true false); OTimer] ++ OInterest c83_arrives :: [].
Definition c83_receives : list (Z * peek_happens) := [] ++ (2500000, KEvent (PeData (data_wire c83_sign c83_packet))) :: [(3000000, KEvent PeTimer)].
Definition c83_request : peek_request := PeekRequest c83_name false true [] 4000 None None.
Definition c83_wire : list N :=
  tlv 5 (flat_map (fun e => tlv (fst e) (snd e)) [(7, tlv 8 (str "A")); (18, []); (10, [1; 2; 3; 4])]%N)%N.

Lemma c83_comps : Forall comp_ok c83_name.
Proof. repeat constructor. all: cbn; unfold type_ok, u64; cbn; lia. Qed.
Lemma c83_published : poke_publishes (fun t => inr [Comp 8 t]) (fun _ => None) c83_offers (str "hi") c83_packet.
Proof. apply (Op_ok _ _ c83_offers (str "hi") (str "A") [] (Comp 8 (str "A"))); try reflexivity; [cbn; lia|discriminate]. Qed.
Lemma c83_arrived : carries c83_wire c83_arrives.
Proof.
  exists [(7, tlv 8 (str "A")); (18, []); (10, [1; 2; 3; 4])]%N. split; [reflexivity|]. split.
  { repeat constructor. all: cbn; unfold type_ok, u64; cbn; lia. }
  split. { split; [left; reflexivity|]. intros v [[= <-]|[[=]|[[=]|[]]]]; reflexivity. }
  split; [exact c83_comps|]. split.
  - intros v [[=]|[[=]|[[=]|[]]]].
  - split; [right; left; reflexivity|]. intros v [[=]|[[= <-]|[[=]|[]]]]; reflexivity.
Qed.

Example C83_run :
  c83_poke c83_happens = PokeOutcome [c83_packet] (RunResult [] [] (Some 0)) /\
  c83_peek 0 c83_receives = RunResult (str "hi") (unlines [str "INTEREST: /A"; str "DATA: /A"; str "RTT: 2 ms"]) (Some 0).
Proof. vm_compute. auto. Qed.
Example C83_no_forgery : only_published c83_sign (po_sent (c83_poke c83_happens)) c83_receives.
Proof.
  rewrite (proj1 C83_run). intros t w I. exists c83_packet. split; [left; reflexivity|].
  destruct I as [[= <- <-]|[[=]|[]]]. reflexivity.
Qed.
(** nothing arrives: no output; ndnpoke keeps waiting *)
Example C83_lost :
  rr_status (po_run (c83_poke [ORegSuccess])) = None /\
  c83_peek 0 [(10000000, KEvent PeTimer)] = RunResult [] (unlines [str "INTEREST: /A"; str "TIMEOUT"]) (Some 3).
Proof. vm_compute. auto. Qed.
(** the hypotheses of C83_succeeds *)
Example C83_network :
  poke_publishes (fun t => inr [Comp 8 t]) (fun _ => None) c83_offers (str "hi") c83_packet /\ data_fits c83_sign c83_packet = true /\
  Forall comp_ok (k_name c83_packet) /\ (forall c, In c (k_name c83_packet) -> c_type c <> 2%N) /\
  peek_asks (fun _ => inl (str "bad")) (fun _ => inl (str "No such file")) c83_asked c83_request /\
  asks_for c83_asked c83_packet (Comp 1 (repeat 7%N 32)) /\
  peek_send (fun _ => repeat 7%N 32) [1; 2; 3; 4]%N c83_request = Some c83_wire /\ carries c83_wire c83_arrives /\
  Forall early [OTimer] /\ Forall (harmless c83_offers) [OInterest (Interest (c83_name ++ [Comp 8 (str "1")]) true false); OTimer].
Proof.
  split; [exact c83_published|]. split; [vm_compute; reflexivity|]. split; [exact c83_comps|]. split.
  { intros c [<-|[]]. discriminate. }
  split. { apply (Ka_ok _ _ c83_asked c83_name None None); try reflexivity; [intros t [= <-]; lia|cbn; lia|constructor; reflexivity]. }
  split. { split; [left; reflexivity|intros _; cbn; lia|split; reflexivity]. }
  split; [vm_compute; reflexivity|]. split; [exact c83_arrived|]. split; repeat constructor.
Qed.
