(** Properties of ndnpeek and ndnpoke in a network: C60. *)
From Verif Require Import Base TlvModel PeekModel PeekPokeModel PeekPokeSpec PeekPokeProofs.

Section C60.
Variable digest : packet -> component.
Variable sign : packet -> list N * list N.
Variable sha256 : list N -> list N.

(** * C60 Peek fetches what poke publishes *)

(** Whatever the network does: if ndnpeek reports success, its output is the standard input of
    ndnpoke (-p) or the packet around it, which satisfies the Interest, and ndnpoke reports
    success as well. *)
Theorem C60_output_is_input :
  forall (i : interest) (po : peek_opts) (o : poke_opts) (input : list N) (es : list pp_event),
    let y := pp_run digest sign i po o input es in
    peek_status (pk_result (np_peek y)) = 0%Z ->
    pk_out (np_peek y) = [if pk_payloadOnly po then input else data_wire sign (poke_data o input)] /\
    matches_data digest i (poke_data o input) = true /\
    pp_sent (np_poke y) = [poke_data o input] /\ poke_status (np_poke y) = 0%Z.
Proof. exact (peek_prints_input digest sign). Qed.

(** If ndnpeek asks for exactly the name of ndnpoke (or its full name), and for fresh Data only
    if a freshness was given, and the packet is not too large, then both succeed and end as soon
    as the registration, the Interest and the Data got through, with whatever else before and
    between except a failure or timeout, ... *)
Theorem C60_success :
  forall (i : interest) (po : peek_opts) (o : poke_opts) (input : list N) (e1 e2 e3 es' : list pp_event),
    pp_unsolicited o = false -> data_fits sign (poke_data o input) = true ->
    asks_exactly i (pp_name o) (digest (poke_data o input)) (pp_fresh o) ->
    Forall undisturbed (e1 ++ e2 ++ e3) ->
    let y := pp_run digest sign i po o input (e1 ++ NpReg :: e2 ++ NpInterest :: e3 ++ NpData :: es') in
    peek_status (pk_result (np_peek y)) = 0%Z /\
    pk_out (np_peek y) = [if pk_payloadOnly po then input else data_wire sign (poke_data o input)] /\
    peek_ended (np_peek y) = true /\ poke_status (np_poke y) = 0%Z /\ poke_ended (np_poke y) = true.
Proof. exact (undisturbed_success digest sign). Qed.

(** ... and that is the case for the plain use of the two programs with the same name. *)
Theorem C60_same_name :
  forall (r : peek_request), pr_params r = None -> (forall c, In c (pr_name r) -> c_type c <> 2%N) ->
    exists fi, create_interest sha256 r = Some fi /\ i_name (fi_interest fi) = pr_name r /\
               i_canBePrefix (fi_interest fi) = pr_canBePrefix r /\ i_mustBeFresh (fi_interest fi) = pr_mustBeFresh r.
Proof. exact (plain_interest sha256). Qed.

(** Unsolicited Data that the network keeps is fetched by every Interest that it satisfies. *)
Theorem C60_unsolicited :
  forall (i : interest) (po : peek_opts) (o : poke_opts) (input : list N) (es es' : list pp_event),
    pp_unsolicited o = true -> data_fits sign (poke_data o input) = true ->
    matches_data digest i (poke_data o input) = true -> Forall undisturbed es ->
    let y := pp_run digest sign i po o input (es ++ NpData :: es') in
    peek_status (pk_result (np_peek y)) = 0%Z /\
    pk_out (np_peek y) = [if pk_payloadOnly po then input else data_wire sign (poke_data o input)] /\
    peek_ended (np_peek y) = true /\ poke_status (np_poke y) = 0%Z /\ poke_ended (np_poke y) = true.
Proof. exact (unsolicited_success digest sign). Qed.

(** Without another consumer, no other Interest is ever answered, whatever the network does. *)
Theorem C60_never_answered :
  forall (i : interest) (po : peek_opts) (o : poke_opts) (input : list N) (es : list pp_event),
    pp_unsolicited o = false -> ~ asks_exactly i (pp_name o) (digest (poke_data o input)) (pp_fresh o) ->
    (forall e, In e es -> ~ by_others e) ->
    let y := pp_run digest sign i po o input es in
    pp_sent (np_poke y) = [] /\ peek_status (pk_result (np_peek y)) <> 0%Z.
Proof. exact (never_answered digest sign). Qed.

(** In particular -P does not help: ndnpeek for a prefix of the name does not get the packet,
    because ndnpoke is given only Interests under its full name. *)
Theorem C60_shorter_name :
  forall (i : interest) (po : peek_opts) (o : poke_opts) (input : list N) (x : component) (rest : name) (es : list pp_event),
    pp_unsolicited o = false -> pp_name o = i_name i ++ x :: rest -> (forall e, In e es -> ~ by_others e) ->
    let y := pp_run digest sign i po o input es in
    pp_sent (np_poke y) = [] /\ peek_status (pk_result (np_peek y)) <> 0%Z.
Proof. exact (shorter_never digest sign). Qed.

(** Nor does ndnpeek with ApplicationParameters, whatever its name, unless ndnpoke was given a
    name with a ParametersSha256Digest (type 2). *)
Theorem C60_parameters :
  forall (r : peek_request) (fi : full_interest) (po : peek_opts) (o : poke_opts) (input : list N) (es : list pp_event),
    create_interest sha256 r = Some fi -> pr_params r <> None ->
    pp_unsolicited o = false -> (forall c, In c (pp_name o) -> c_type c <> 2%N) ->
    (forall e, In e es -> ~ by_others e) ->
    let y := pp_run digest sign (fi_interest fi) po o input es in
    pp_sent (np_poke y) = [] /\ peek_status (pk_result (np_peek y)) <> 0%Z.
Proof. exact (params_unanswered digest sign sha256). Qed.
End C60.
Print Assumptions C60_output_is_input.
Print Assumptions C60_success.
Print Assumptions C60_same_name.
Print Assumptions C60_unsolicited.
Print Assumptions C60_never_answered.
Print Assumptions C60_shorter_name.
Print Assumptions C60_parameters.

(** ndnpeek -pf /A and "hi" | ndnpoke -f 10 -F /A; the Interest comes twice, once too early *)
Section Case.
Let dg : packet -> component := fun _ => Comp 1 (repeat 7%N 32).
Let sg : packet -> list N * list N := fun _ => (tlv 27 [0%N], [1; 2; 3]%N).
Let sha : list N -> list N := fun _ => repeat 9%N 32.
Let A : name := [Comp 8 [65%N]].
Let r : peek_request := PeekRequest A false true [] 4000 None None.
Let o : poke_opts := PokeOpts A 10 true false true.
Let input : list N := [104; 105]%N.
Let i : interest := Interest A false true.

Example C60_case :
  option_map fi_interest (create_interest sha r) = Some i /\
  data_fits sg (poke_data o input) = true /\
  asks_exactly i (pp_name o) (dg (poke_data o input)) (pp_fresh o) /\
  let y := pp_run dg sg i (PeekOpts true false) o input [NpInterest; NpReg; NpInterest; NpData; NpPokeTimer; NpExpired] in
  pk_out (np_peek y) = [input] /\ peek_status (pk_result (np_peek y)) = 0%Z /\ poke_status (np_poke y) = 0%Z.
Proof.
  split; [reflexivity|]. split; [reflexivity|]. split; [split; [now left|intros _; vm_compute; reflexivity]|].
  vm_compute. auto.
Qed.
Example C60_case_unsolicited :
  let o := PokeOpts (A ++ [Comp 8 [66%N]]) 10 true true false in
  let j := Interest A true true in
  matches_data dg j (poke_data o input) = true /\
  pk_out (np_peek (pp_run dg sg j (PeekOpts true false) o input [NpData; NpExpired])) = [input].
Proof. vm_compute. auto. Qed.
(** with ApplicationParameters, and for a prefix *)
Example C60_case_unanswered :
  let rp := PeekRequest A true false [] 4000 (Some 5%N) (Some [1; 2]%N) in
  match create_interest sha rp with
  | Some fi => i_name (fi_interest fi) = A ++ [Comp 2 (repeat 9%N 32)] /\
               pp_sent (np_poke (pp_run dg sg (fi_interest fi) (PeekOpts true false) o input [NpReg; NpInterest; NpData])) = []
  | None => False
  end /\
  pp_sent (np_poke (pp_run dg sg (Interest [] true false) (PeekOpts true false) o input [NpReg; NpInterest; NpData])) = [].
Proof. vm_compute. auto. Qed.
End Case.
