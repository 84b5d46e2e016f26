(** Properties of the Interest of ndnpeek: C68; and of its failures in a network: C60. *)
From Verif Require Import Base TlvModel TlvProofs PeekModel PeekPokeModel PeekWireModel PeekWireSpec PeekWireProofs.

Section C68.
Variable sha256 : list N -> list N.

(** * C68 The Interest of ndnpeek says what the options say *)

(** The packet that is sent is an Interest of at most 8800 octets without repeated or unknown
    elements.  Its name is the given one; with application parameters it has one digest of the
    ApplicationParameters element.  There is a CanBePrefix, MustBeFresh, ForwardingHint, HopLimit
    or ApplicationParameters element exactly if the option was given, with the value that was
    given, and a lifetime unless it is the default of 4000 ms. *)
Theorem C68_packet :
  forall (nonce : list N) (r : peek_request) (w : list N),
    peek_send sha256 nonce r = Some w ->
    exists es n',
      interest_of w es /\ (length w <= 8 * 1100)%nat /\
      NoDup (map fst es) /\ (forall t v, In (t, v) es -> In t [7; 33; 18; 30; 10; 12; 34; 36]%N) /\
      has es 7 (flat_map (fun c => tlv (c_type c) (c_value c)) n') /\
      match pr_params r with
      | None => n' = pr_name r /\ lacks es 36
      | Some p => with_digest (pr_name r) n' (sha256 (tlv 36 p)) /\ has es 36 p
      end /\
      flag es 33 (pr_canBePrefix r) /\ flag es 18 (pr_mustBeFresh r) /\
      (pr_hint r = [] -> lacks es 30) /\ (pr_hint r <> [] -> has es 30 (flat_map encode_name (pr_hint r))) /\
      has es 10 nonce /\
      (pr_lifetime r = 4000%Z -> lacks es 12) /\ (pr_lifetime r <> 4000%Z -> has es 12 (nni (Z.to_N (pr_lifetime r)))) /\
      match pr_hopLimit r with Some h => has es 34 [h] | None => lacks es 34 end.
Proof. exact (sent_fields sha256). Qed.

(** No packet is sent (and the exit status is 1) exactly if the name has several digest
    components, or one without application parameters, or if the packet would be too long. *)
Theorem C68_not_sent :
  forall (nonce : list N) (r : peek_request),
    peek_send sha256 nonce r = None <->
    (1 < digests (pr_name r))%nat \/ (digests (pr_name r) = 1%nat /\ pr_params r = None) \/
    exists f, create_interest sha256 r = Some f /\ (8 * 1100 < length (interest_wire nonce f))%nat.
Proof. exact (not_sent sha256). Qed.

(** Different options make different Interests: whoever gets the packet can tell the name, the
    flags, the hint, the lifetime, the hop limit and the parameters. *)
Theorem C68_unambiguous :
  (forall x, length (sha256 x) = 32%nat) ->
  forall (nonce nonce' : list N) (r r' : peek_request) (w : list N),
    request_ok r -> request_ok r' ->
    (forall c, In c (pr_name r) -> c_type c <> 2%N) -> (forall c, In c (pr_name r') -> c_type c <> 2%N) ->
    peek_send sha256 nonce r = Some w -> peek_send sha256 nonce' r' = Some w -> r = r'.
Proof. exact (unambiguous sha256). Qed.
End C68.
Print Assumptions C68_packet.
Print Assumptions C68_not_sent.
Print Assumptions C68_unambiguous.

(** ndnpeek -P -F /H -l 100 -H 5 -A "hi" /A *)
Definition ex_sha (x : list N) : list N := repeat 9%N 32.
Definition ex_request : peek_request :=
  PeekRequest [Comp 8 [65%N]] true false [[Comp 8 [72%N]]] 100 (Some 5%N) (Some [104; 105]%N).
Example C68_case :
  peek_send ex_sha [1; 2; 3; 4]%N ex_request =
    Some (tlv 5 (tlv 7 (tlv 8 [65] ++ tlv 2 (repeat 9 32)) ++ tlv 33 [] ++ tlv 30 (tlv 7 (tlv 8 [72])) ++ tlv 10 [1; 2; 3; 4] ++
                 tlv 12 [100] ++ tlv 34 [5] ++ tlv 36 [104; 105]))%N /\
  request_ok ex_request /\ (forall c, In c (pr_name ex_request) -> c_type c <> 2%N) /\
  peek_send ex_sha [1; 2; 3; 4]%N (PeekRequest [Comp 2 [65%N]] true false [] 100 None None) = None.
Proof.
  split; [reflexivity|]. split; [|split; [intros c [<-|[]]; discriminate|reflexivity]].
  assert (K : forall x, (x < 256)%N -> name_ok [Comp 8 [x]]).
  { intros x Hx. split; [constructor; [split; [vm_compute; auto|vm_compute; reflexivity]|constructor]|vm_compute; reflexivity]. }
  split; [apply K; lia|]. split; [constructor; [apply K; lia|constructor]|cbn; lia].
Qed.

(** * C60 Nacks and timeouts *)

(** The first thing that happens to ndnpeek decides: a Nack gives status 4 and the Nack or its
    reason on the standard output, the end of the lifetime or of the execution timeout gives
    status 3 and no output, whatever ndnpoke does. *)
Theorem C60_failures :
  forall (digest : packet -> component) (sign : packet -> list N * list N)
         (i : interest) (po : peek_opts) (o : poke_opts) (input : list N)
         (es es' : list pp_event) (e : pp_event) (status : Z) (out : list (list N)),
    Forall (silent po) es ->
    (exists h, e = NpNack h /\ status = 4%Z /\ out = [if pk_payloadOnly po then reason_text (nack_code h) ++ [10%N] else h]) \/
    ((e = NpExpired \/ e = NpPeekTimer /\ pk_timeout po = true) /\ status = 3%Z /\ out = []) ->
    let y := pp_run digest sign i po o input (es ++ e :: es') in
    peek_status (pk_result (np_peek y)) = status /\ pk_out (np_peek y) = out /\ peek_ended (np_peek y) = true.
Proof. exact nack_or_timeout. Qed.
Print Assumptions C60_failures.
Example C60_failures_case :
  let A : name := [Comp 8 [65%N]] in
  let y := pp_run (fun _ => Comp 1 []) (fun _ => ([], [])) (Interest A false false) (PeekOpts true true) (PokeOpts A 10 true false true) [104%N]
             [NpReg; NpInterest; NpPokeTimer; NpNack (tlv TNack (tlv TNackReason (nni 150))); NpData] in
  peek_status (pk_result (np_peek y)) = 4%Z /\ pk_out (np_peek y) = [[78; 111; 82; 111; 117; 116; 101; 10]%N] /\ poke_status (np_poke y) = 0%Z.
Proof. vm_compute. auto. Qed.
