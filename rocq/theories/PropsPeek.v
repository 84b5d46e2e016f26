(** Properties of ndnpeek and ndnpoke: C36-C38. *)
From Verif Require Import Base TlvModel TlvProofs PeekModel PeekProofs.

(** * C36 Peek has exactly one outcome *)

(** At most one packet is printed. *)
Theorem C36_one_output :
  forall (o : peek_opts) (es : list peek_event), (length (pk_out (peek_run o es)) <= 1)%nat.
Proof. exact peek_one_output. Qed.
Print Assumptions C36_one_output.

(** The first event that means anything decides: Data, Nack, the end of the Interest's
    lifetime, or the execution timeout if there is one.  Then the program ends; whatever
    comes later ([es']) changes nothing. *)
Theorem C36_first_event_decides :
  forall (o : peek_opts) es e es',
    (forall x, In x es -> x = PeTimer /\ pk_timeout o = false) ->
    (e = PeTimer -> pk_timeout o = true) ->
    let s := peek_run o (es ++ e :: es') in
    peek_ended s = true /\
    peek_status (pk_result s) = (match e with PeData _ => 0 | PeNack _ => 4 | PeExpired | PeTimer => 3 end)%Z.
Proof. exact peek_decides. Qed.
Print Assumptions C36_first_event_decides.

(** The exit status tells what happened: 1 while nothing has, 0 Data, 4 Nack, 3 timeout. *)
Theorem C36_status :
  forall (o : peek_opts) (es : list peek_event), let s := peek_run o es in
  (peek_status (pk_result s) = 1%Z <-> peek_ended s = false) /\
  (peek_status (pk_result s) = 1%Z \/ peek_status (pk_result s) = 3%Z -> pk_out s = []) /\
  (peek_status (pk_result s) = 0%Z -> exists w, In (PeData w) es /\ pk_out s = [if pk_payloadOnly o then content_of_wire w else w]) /\
  (peek_status (pk_result s) = 4%Z -> exists w, In (PeNack w) es /\
     pk_out s = [if pk_payloadOnly o then reason_text (nack_code w) ++ [newline] else w]) /\
  (peek_status (pk_result s) = 3%Z -> In PeExpired es \/ (In PeTimer es /\ pk_timeout o = true)).
Proof. exact peek_status_iff. Qed.
Print Assumptions C36_status.

Theorem C36_final :
  forall (o : peek_opts) es es', peek_ended (peek_run o es) = true -> peek_run o (es ++ es') = peek_run o es.
Proof. exact peek_stable. Qed.
Print Assumptions C36_final.

Example C36_case :
  let o := PeekOpts true false in
  let s := peek_run o [PeTimer; PeNack (tlv TNack (tlv TNackReason (nni 150))); PeExpired] in
  peek_ended s = true /\ peek_status (pk_result s) = 4%Z /\ pk_out s = [[78; 111; 82; 111; 117; 116; 101; 10]%N].
Proof. vm_compute. auto. Qed.

(** * C37 Peek output *)

(** The Data packet as it came, ... *)
Theorem C37_packet :
  forall (o : peek_opts) (w : list N) es', pk_payloadOnly o = false ->
    concat (pk_out (peek_run o (PeData w :: es'))) = w.
Proof. exact peek_prints_packet. Qed.
Print Assumptions C37_packet.

(** ... or with -p exactly the value of its Content element, for every packet [tlv TData ...]
    (the elements before it are of other types), ... *)
Theorem C37_payload :
  forall (o : peek_opts) pre content post es',
    pk_payloadOnly o = true ->
    Forall (fun e => elem_ok (fst e) (snd e)) (pre ++ (TContent, content) :: post) ->
    u64 (N.of_nat (length (encode_all (pre ++ (TContent, content) :: post)))) ->
    (forall e, In e pre -> fst e <> TContent) ->
    concat (pk_out (peek_run o (PeData (tlv TData (encode_all (pre ++ (TContent, content) :: post))) :: es'))) = content.
Proof. exact peek_prints_payload. Qed.
Print Assumptions C37_payload.

(** ... which may be absent. *)
Theorem C37_no_payload :
  forall (o : peek_opts) elems es',
    pk_payloadOnly o = true ->
    Forall (fun e => elem_ok (fst e) (snd e)) elems -> u64 (N.of_nat (length (encode_all elems))) ->
    (forall e, In e elems -> fst e <> TContent) ->
    concat (pk_out (peek_run o (PeData (tlv TData (encode_all elems)) :: es'))) = [].
Proof. exact peek_prints_no_payload. Qed.
Print Assumptions C37_no_payload.

(** A Nack: its header as it came, or the name of the reason and a newline. *)
Theorem C37_nack :
  forall (o : peek_opts) (r : N) es', u64 r ->
    let header := tlv TNack (tlv TNackReason (nni r)) in
    concat (pk_out (peek_run o (PeNack header :: es'))) =
      if pk_payloadOnly o then reason_text r ++ [newline] else header.
Proof. exact peek_prints_nack. Qed.
Print Assumptions C37_nack.

(** a packet with name /A, Content "hi" and a signature *)
Example C37_case :
  let wire := tlv TData (encode_all [(7%N, tlv 8 [65%N]); (TContent, [104; 105]%N); (22%N, tlv 27 [0%N]); (23%N, [])]) in
  concat (pk_out (peek_run (PeekOpts true true) [PeData wire; PeTimer])) = [104; 105]%N /\
  concat (pk_out (peek_run (PeekOpts false true) [PeData wire])) = wire.
Proof. vm_compute. auto. Qed.

(** * C38 Poke sends at most one Data *)

Section C38.
Variable digest : packet -> component.
Variable fits : packet -> bool.

(** At most one packet is transmitted, namely the one with the given name and the standard
    input as content ... *)
Theorem C38_at_most_once :
  forall (o : poke_opts) input es,
    (length (pp_sent (poke_run digest fits o input es)) <= 1)%nat /\
    forall d, In d (pp_sent (poke_run digest fits o input es)) ->
      k_name d = pp_name o /\ k_content d = input /\ k_fresh d = pp_fresh o /\
      k_fbi d = (if pp_final o then last_comp (pp_name o) else None).
Proof. exact (poke_at_most_once digest fits). Qed.

(** ... immediately if unsolicited, otherwise only in answer to an Interest that it satisfies,
    received after the registration. *)
Theorem C38_only_in_answer :
  forall (o : poke_opts) input es,
    pp_sent (poke_run digest fits o input es) <> [] ->
    pp_unsolicited o = true \/
    exists e1 i e2, es = e1 ++ PoInterest i :: e2 /\ In PoRegSuccess e1 /\
                    matches_data digest i (poke_data o input) = true.
Proof. exact (poke_why digest fits). Qed.

(** It is sent (if it fits into a packet) when the first such Interest arrives. *)
Theorem C38_answers :
  forall (o : poke_opts) input es i,
    In PoRegSuccess es -> poke_ended (poke_run digest fits o input es) = false ->
    matches_data digest i (poke_data o input) = true ->
    pp_sent (poke_run digest fits o input (es ++ [PoInterest i])) =
      (if fits (poke_data o input) then [poke_data o input] else []) /\
    poke_ended (poke_run digest fits o input (es ++ [PoInterest i])) = true.
Proof. exact (poke_answers digest fits). Qed.
Theorem C38_unsolicited :
  forall (o : poke_opts) input es, pp_unsolicited o = true ->
    pp_sent (poke_run digest fits o input es) = (if fits (poke_data o input) then [poke_data o input] else []) /\
    poke_ended (poke_run digest fits o input es) = true.
Proof. exact (poke_unsolicited digest fits). Qed.

(** The exit status: 0 iff the packet was sent, 3 after a timeout and 5 after a failed
    registration, in both cases without sending; else 1. *)
Theorem C38_status :
  forall (o : poke_opts) input es, let s := poke_run digest fits o input es in
  (poke_status s = 0%Z <-> pp_sent s = [poke_data o input]) /\
  (poke_status s = 3%Z -> pp_timeout o = true /\ In PoTimer es /\ In PoRegSuccess es /\ pp_sent s = []) /\
  (poke_status s = 5%Z -> In PoRegFailure es /\ pp_sent s = []) /\
  (poke_status s = 0%Z \/ poke_status s = 1%Z \/ poke_status s = 3%Z \/ poke_status s = 5%Z).
Proof. exact (poke_status_meaning digest fits). Qed.

(** The program waits exactly as long as nothing of that happened; afterwards nothing changes,
    in particular nothing is sent after a timeout. *)
Theorem C38_waits :
  forall (o : poke_opts) input es, let s := poke_run digest fits o input es in
    poke_ended s = false <-> (poke_status s = 1%Z /\ pp_crash s = false).
Proof. exact (poke_end_iff digest fits). Qed.
Theorem C38_final :
  forall (o : poke_opts) input es es', poke_ended (poke_run digest fits o input es) = true ->
    poke_run digest fits o input (es ++ es') = poke_run digest fits o input es.
Proof. exact (poke_stable digest fits). Qed.
End C38.
Print Assumptions C38_at_most_once.
Print Assumptions C38_only_in_answer.
Print Assumptions C38_answers.
Print Assumptions C38_unsolicited.
Print Assumptions C38_status.
Print Assumptions C38_waits.
Print Assumptions C38_final.

(** the first Interest asks for another name, the second is for a prefix, the third too late *)
Example C38_case :
  let o := PokeOpts [Comp TGeneric [65%N]; Comp TGeneric [66%N]] 10000 true false true in
  let run es := poke_run (fun _ => Comp TImplicitDigest []) (fun _ => true) o [104; 105]%N es in
  let i1 := Interest [Comp TGeneric [65%N]] false false in
  let i2 := Interest [Comp TGeneric [65%N]] true true in
  map k_content (pp_sent (run [PoInterest i2; PoRegSuccess; PoInterest i1; PoInterest i2; PoTimer; PoInterest i2])) = [[104; 105]%N] /\
  poke_status (run [PoRegSuccess; PoInterest i1; PoTimer; PoInterest i2]) = 3%Z /\
  poke_status (run [PoRegFailure; PoInterest i2]) = 5%Z.
Proof. vm_compute. auto. Qed.
