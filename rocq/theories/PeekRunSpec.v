(** What ndnpeek and ndnpoke do as programs.  Written from the manual pages. *)
From Verif Require Import Base TlvModel PingModel PeekModel PeekPokeModel PeekWireModel DumpModel DissectSpec PeekRunModel.
From Coq Require Import String List.
Import ListNotations.
Local Open Scope Z_scope.
Local Open Scope list_scope.

(** printed only with -v *)
Definition if_verbose (verbose : bool) (ls : list text) : text := if verbose then unlines ls else [].

(** * ndnpeek *)
Section Peek.
Variable sha256 : list N -> list N.
Variable nonce : list N.
Variable interest_text : full_interest -> text.
Variable wire_name : list N -> text.
Variable usage version : text.
Variable base64 : text -> text + list N.
Variable open_file : text -> text + (text + list N).
Variable face_error : option text.
Variable create_error send_error : text.

(** complaints about the options *)
Inductive params_complaint (a : peek_args) : text -> Prop :=
| Pc_both t f : ka_params a = Some t -> ka_paramsFile a = Some f -> params_complaint a (str "cannot specify both '--app-params' and '--app-params-file'")
| Pc_base64 t e : ka_params a = Some t -> ka_paramsFile a = None -> base64 t = inl e ->
    params_complaint a (str "invalid ApplicationParameters string: " ++ e)
| Pc_open f e : ka_params a = None -> ka_paramsFile a = Some f -> open_file f = inl e ->
    params_complaint a (str "cannot open '" ++ f ++ str "' for reading: " ++ e)
| Pc_read f e : ka_params a = None -> ka_paramsFile a = Some f -> open_file f = inr (inl e) ->
    params_complaint a (str "cannot read ApplicationParameters from file '" ++ f ++ str "': " ++ e).
Inductive peek_complaint (a : peek_args) : text -> Prop :=
| Kc_name : ka_name a = None -> peek_complaint a (unlines [str "missing name"; []] ++ usage)
| Kc_timeout t : ka_timeout a = Some t -> t < 0 -> ka_name a <> None -> peek_complaint a (unlines [str "timeout cannot be negative"])
| Kc_lifetime : ka_lifetime a < 0 -> ka_name a <> None -> (forall t, ka_timeout a = Some t -> 0 <= t) ->
    peek_complaint a (unlines [str "InterestLifetime cannot be negative"])
| Kc_hops h : ka_hopLimit a = Some h -> ~ 0 <= h <= 255 -> ka_name a <> None -> (forall t, ka_timeout a = Some t -> 0 <= t) -> 0 <= ka_lifetime a ->
    peek_complaint a (unlines [str "HopLimit must be between 0 and 255"])
| Kc_params m : ka_name a <> None -> (forall t, ka_timeout a = Some t -> 0 <= t) -> 0 <= ka_lifetime a ->
    (forall h, ka_hopLimit a = Some h -> 0 <= h <= 255) -> params_complaint a m -> peek_complaint a (unlines [m]).
(** the ApplicationParameters *)
Inductive peek_params (a : peek_args) : option (list N) -> Prop :=
| Pp_none : ka_params a = None -> ka_paramsFile a = None -> peek_params a None
| Pp_text t p : ka_params a = Some t -> ka_paramsFile a = None -> base64 t = inr p -> peek_params a (Some p)
| Pp_file f p : ka_params a = None -> ka_paramsFile a = Some f -> open_file f = inr (inr p) -> peek_params a (Some p).
(** the Interest that the options ask for *)
Inductive peek_asks (a : peek_args) : peek_request -> Prop :=
| Ka_ok n p h : ka_name a = Some n -> (forall t, ka_timeout a = Some t -> 0 <= t) -> 0 <= ka_lifetime a ->
    match ka_hopLimit a, h with
    | Some z, Some k => 0 <= z <= 255 /\ Z.of_N k = z
    | None, None => True
    | _, _ => False
    end -> peek_params a p ->
    peek_asks a (PeekRequest n (ka_prefix a) (ka_fresh a) (ka_hints a) (ka_lifetime a) h p).

(** whole milliseconds *)
Definition elapsed (t0 t : Z) (ms : N) : Prop := Z.of_N ms * 1000000 <= t - t0 < (Z.of_N ms + 1) * 1000000.

(** What is written to the standard output and to the standard error after the Interest was
    sent at the time [t0], and the exit status. *)
Inductive peek_receives (a : peek_args) (t0 : Z) : list (Z * peek_happens) -> text -> text -> option Z -> Prop :=
| Kr_waiting : peek_receives a t0 [] [] [] None
| Kr_data t w es ms : elapsed t0 t ms ->
    peek_receives a t0 ((t, KEvent (PeData w)) :: es)
      (if ka_payload a then content_of_wire w else w)
      (if_verbose (ka_verbose a) [str "DATA: " ++ wire_name w; str "RTT: " ++ to_string ms ++ str " ms"]) (Some 0)
| Kr_nack t h es ms : elapsed t0 t ms ->
    peek_receives a t0 ((t, KEvent (PeNack h)) :: es)
      (if ka_payload a then unlines [reason_text (nack_code h)] else h)
      (if_verbose (ka_verbose a) [str "NACK: " ++ reason_text (nack_code h); str "RTT: " ++ to_string ms ++ str " ms"]) (Some 4)
| Kr_expired t es : peek_receives a t0 ((t, KEvent PeExpired) :: es) [] (if_verbose (ka_verbose a) [str "TIMEOUT"]) (Some 3)
| Kr_timeout t w es : ka_timeout a = Some w ->
    peek_receives a t0 ((t, KEvent PeTimer) :: es) [] (if_verbose (ka_verbose a) [str "TIMEOUT"]) (Some 3)
| Kr_no_timer t es out err st : ka_timeout a = None -> peek_receives a t0 es out err st ->
    peek_receives a t0 ((t, KEvent PeTimer) :: es) out err st
| Kr_fails t what es : peek_receives a t0 ((t, KFails what) :: es) [] (unlines [str "ERROR: " ++ what]) (Some 1).

Inductive peek_behaves (t0 : Z) (es : list (Z * peek_happens)) : text + peek_args -> run_result -> Prop :=
| Kb_wrong e : peek_behaves t0 es (inl e) (RunResult [] (unlines [str "ERROR: " ++ e]) (Some 2))
| Kb_help a : ka_help a = true -> peek_behaves t0 es (inr a) (RunResult usage [] (Some 0))
| Kb_version a : ka_help a = false -> ka_version a = true -> peek_behaves t0 es (inr a) (RunResult version [] (Some 0))
| Kb_complaint a m : ka_help a = false -> ka_version a = false -> peek_complaint a m ->
    peek_behaves t0 es (inr a) (RunResult [] (str "ERROR: " ++ m) (Some 2))
| Kb_no_face a r what : ka_help a = false -> ka_version a = false -> peek_asks a r -> face_error = Some what ->
    peek_behaves t0 es (inr a) (RunResult [] (unlines [str "ERROR: " ++ what]) (Some 1))
(* two or more digest components *)
| Kb_no_interest a r : ka_help a = false -> ka_version a = false -> peek_asks a r -> face_error = None ->
    (2 <= List.length (filter is_params_digest (pr_name r)))%nat ->
    peek_behaves t0 es (inr a) (RunResult [] (unlines [str "ERROR: " ++ create_error]) (Some 1))
(* the Interest cannot be sent; with -v it is shown nevertheless *)
| Kb_not_sent a r f : ka_help a = false -> ka_version a = false -> peek_asks a r -> face_error = None ->
    (List.length (filter is_params_digest (pr_name r)) <= 1)%nat -> peek_send sha256 nonce r = None ->
    (create_interest sha256 r = Some f \/
     create_interest sha256 r = None /\
     f = FullInterest (Interest (pr_name r) (pr_canBePrefix r) (pr_mustBeFresh r)) (pr_hint r) (pr_lifetime r) (pr_hopLimit r) (pr_params r)) ->
    peek_behaves t0 es (inr a)
      (RunResult [] (if_verbose (ka_verbose a) [str "INTEREST: " ++ interest_text f] ++ unlines [str "ERROR: " ++ send_error]) (Some 1))
| Kb_sent a r f packet out err st : ka_help a = false -> ka_version a = false -> peek_asks a r -> face_error = None ->
    create_interest sha256 r = Some f -> peek_send sha256 nonce r = Some packet ->
    peek_receives a t0 es out err st ->
    peek_behaves t0 es (inr a) (RunResult out (if_verbose (ka_verbose a) [str "INTEREST: " ++ interest_text f] ++ err) st).
End Peek.

(** * ndnpoke *)
Section Poke.
Variable digest : packet -> component.
Variable sign : packet -> list N * list N.
Variable interest_text : interest -> text.
Variable data_text : packet -> text.
Variable usage version : text.
Variable parse_name : text -> text + name.
Variable signing_error : text -> option text.
Variable start_error : option text.
Variable put_error : text.
Variable put_later : bool.

Inductive poke_complaint (a : poke_args) : text -> Prop :=
| Oc_missing : oa_name a = None -> poke_complaint a (unlines [str "missing name"; []] ++ usage)
| Oc_invalid t e : oa_name a = Some t -> parse_name t = inl e -> poke_complaint a (unlines [str "invalid name: " ++ e])
| Oc_empty t : oa_name a = Some t -> parse_name t = inr [] -> poke_complaint a (unlines [str "name cannot have zero components"])
| Oc_fresh t n : oa_name a = Some t -> parse_name t = inr n -> n <> [] -> oa_fresh a < 0 ->
    poke_complaint a (unlines [str "freshness cannot be negative"])
| Oc_signing t n e : oa_name a = Some t -> parse_name t = inr n -> n <> [] -> 0 <= oa_fresh a -> signing_error (oa_signing a) = Some e ->
    poke_complaint a (unlines [e])
| Oc_conflict t n w : oa_name a = Some t -> parse_name t = inr n -> n <> [] -> 0 <= oa_fresh a -> signing_error (oa_signing a) = None ->
    oa_timeout a = Some w -> oa_unsolicited a = true ->
    poke_complaint a (unlines [str "conflicting '--unsolicited' and '--timeout' options specified"])
| Oc_timeout t n w : oa_name a = Some t -> parse_name t = inr n -> n <> [] -> 0 <= oa_fresh a -> signing_error (oa_signing a) = None ->
    oa_timeout a = Some w -> oa_unsolicited a = false -> w < 0 ->
    poke_complaint a (unlines [str "timeout cannot be negative"]).
(** the Data packet that the options ask for *)
Inductive poke_publishes (a : poke_args) (input : list N) : packet -> Prop :=
| Op_ok t n c : oa_name a = Some t -> parse_name t = inr (n ++ [c]) -> 0 <= oa_fresh a -> signing_error (oa_signing a) = None ->
    (forall w, oa_timeout a = Some w -> oa_unsolicited a = false /\ 0 <= w) ->
    poke_publishes a input (Packet (n ++ [c]) input (if oa_final a then Some c else None) (oa_fresh a)).

(** putting the packet [d]: packets sent, standard error, exit status *)
Inductive poke_puts (a : poke_args) (d : packet) : list packet -> text -> option Z -> Prop :=
| Ou_sent : data_fits sign d = true -> poke_puts a d [d] (if oa_verbose a then str "DATA: " ++ data_text d else []) (Some 0)
| Ou_long : data_fits sign d = false ->
    poke_puts a d [] ((if (put_later && oa_verbose a)%bool then str "DATA: " ++ data_text d else []) ++ unlines [str "ERROR: " ++ put_error]) (Some 1).

(** after the registration *)
Inductive poke_serves (a : poke_args) (d : packet) : list poke_happens -> list packet -> text -> option Z -> Prop :=
| Os_waiting : poke_serves a d [] [] [] None
| Os_answer i es sent err st : is_prefix_of (k_name d) (i_name i) = true -> matches_data digest i d = true -> poke_puts a d sent err st ->
    poke_serves a d (OInterest i :: es) sent (if_verbose (oa_verbose a) [str "INTEREST: " ++ interest_text i] ++ err) st
| Os_other i es sent err st : is_prefix_of (k_name d) (i_name i) = true -> matches_data digest i d = false -> poke_serves a d es sent err st ->
    poke_serves a d (OInterest i :: es) sent
      (if_verbose (oa_verbose a) [str "INTEREST: " ++ interest_text i; str "Interest cannot be satisfied"] ++ err) st
| Os_foreign i es sent err st : is_prefix_of (k_name d) (i_name i) = false -> poke_serves a d es sent err st ->
    poke_serves a d (OInterest i :: es) sent err st
| Os_timeout w es : oa_timeout a = Some w -> poke_serves a d (OTimer :: es) [] (if_verbose (oa_verbose a) [str "TIMEOUT"]) (Some 3)
| Os_no_timer es sent err st : oa_timeout a = None -> poke_serves a d es sent err st -> poke_serves a d (OTimer :: es) sent err st
| Os_success es sent err st : poke_serves a d es sent err st -> poke_serves a d (ORegSuccess :: es) sent err st
| Os_failure reason es sent err st : poke_serves a d es sent err st -> poke_serves a d (ORegFailure reason :: es) sent err st
| Os_fails what es : poke_serves a d (OFails what :: es) [] (unlines [str "ERROR: " ++ what]) (Some 1).
(** before the registration *)
Inductive poke_registers (a : poke_args) (d : packet) : list poke_happens -> list packet -> text -> option Z -> Prop :=
| Or_waiting : poke_registers a d [] [] [] None
| Or_success es sent err st : poke_serves a d es sent err st ->
    poke_registers a d (ORegSuccess :: es) sent (if_verbose (oa_verbose a) [str "Prefix registration successful"] ++ err) st
| Or_failure reason es : poke_registers a d (ORegFailure reason :: es) [] (unlines [str "Prefix registration failure (" ++ reason ++ str ")"]) (Some 5)
| Or_interest i es sent err st : poke_registers a d es sent err st -> poke_registers a d (OInterest i :: es) sent err st
| Or_timer es sent err st : poke_registers a d es sent err st -> poke_registers a d (OTimer :: es) sent err st
| Or_fails what es : poke_registers a d (OFails what :: es) [] (unlines [str "ERROR: " ++ what]) (Some 1).

Inductive poke_behaves (input : list N) (es : list poke_happens) : text + poke_args -> poke_outcome -> Prop :=
| Ob_wrong e : poke_behaves input es (inl e) (PokeOutcome [] (RunResult [] (unlines [str "ERROR: " ++ e]) (Some 2)))
| Ob_help a : oa_help a = true -> poke_behaves input es (inr a) (PokeOutcome [] (RunResult usage [] (Some 0)))
| Ob_version a : oa_help a = false -> oa_version a = true -> poke_behaves input es (inr a) (PokeOutcome [] (RunResult version [] (Some 0)))
| Ob_complaint a m : oa_help a = false -> oa_version a = false -> poke_complaint a m ->
    poke_behaves input es (inr a) (PokeOutcome [] (RunResult [] (str "ERROR: " ++ m) (Some 2)))
| Ob_no_start a d what : oa_help a = false -> oa_version a = false -> poke_publishes a input d -> start_error = Some what ->
    poke_behaves input es (inr a) (PokeOutcome [] (RunResult [] (unlines [str "ERROR: " ++ what]) (Some 1)))
| Ob_unsolicited a d sent err st : oa_help a = false -> oa_version a = false -> poke_publishes a input d -> start_error = None ->
    oa_unsolicited a = true -> poke_puts a d sent err st ->
    poke_behaves input es (inr a) (PokeOutcome sent (RunResult [] err st))
| Ob_serves a d sent err st : oa_help a = false -> oa_version a = false -> poke_publishes a input d -> start_error = None ->
    oa_unsolicited a = false -> poke_registers a d es sent err st ->
    poke_behaves input es (inr a) (PokeOutcome sent (RunResult [] err st)).
End Poke.
