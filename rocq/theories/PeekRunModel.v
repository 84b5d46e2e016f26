(** ndnpeek and ndnpoke as programs: tools/peek/ndnpeek/main.cpp, ndnpeek.cpp and
    tools/peek/ndnpoke/main.cpp, ndnpoke.cpp, with everything they print and their exit status.

    Environment: the command line has been parsed (Boost.Program_options); the text forms of
    names, Interests, Data packets and exceptions and the usage texts are arbitrary; so are
    base64, the file system and the signing information.  The times are those of the steady
    clock, in nanoseconds.  An exception may leave Face::processEvents at any time, for instance
    if the connection to the forwarder breaks. *)
From Verif Require Import Base TlvModel PingModel PeekModel PeekPokeModel PeekWireModel DumpModel.
From Coq Require Import String List.
Import ListNotations.
Local Open Scope list_scope.

Record run_result := RunResult { rr_stdout : text; rr_stderr : text; rr_status : option Z (* None: still running *) }.
Definition nl : text := [10%N].

(** * ndnpeek *)

(** ndnpeek/main.cpp L75-109; the names have been converted, L113 *)
Record peek_args := PeekArgs {
  ka_help : bool; ka_version : bool; ka_payload : bool; ka_verbose : bool; ka_prefix : bool; ka_fresh : bool;
  ka_name : option name; ka_hints : list name; ka_timeout : option Z; ka_lifetime : Z; ka_hopLimit : option Z;
  ka_params : option text; ka_paramsFile : option text
}.
(** what may happen while ndnpeek runs *)
Inductive peek_happens := KEvent (e : peek_event) | KFails (what : text).

Section Peek.
Variable sha256 : list N -> list N.
Variable nonce : list N.
Variable interest_text : full_interest -> text.     (* operator<<(Interest) *)
Variable wire_name : list N -> text.                (* the name of a received packet *)
Variable usage version : text.                      (* L49-56, L127 *)
(** io::loadBuffer with BASE64: the text of the exception, or the octets *)
Variable base64 : text -> text + list N.
(** openBinaryFile, L58-67: strerror(errno), or what io::loadBuffer makes of the file *)
Variable open_file : text -> text + (text + list N).
(** exceptions of the constructors of Face, of Interest, and of sending it *)
Variable face_error : option text.
Variable create_error send_error : text.

(** ndnpeek.cpp L90-128; [t0]: m_sendTime; time::duration_cast truncates *)
Definition ms_since (t0 t : Z) : text := to_string (Z.to_N ((t - t0) / 1000000)).
Definition rtt_line (t0 t : Z) : text := str "RTT: " ++ ms_since t0 t ++ str " ms" ++ nl.
Definition say (verbose : bool) (t : text) : text := if verbose then t else [].

(** [kr_failed]: the text of the exception that has left processEvents *)
Record peek_running := PeekRunning { kr_peek : peek; kr_err : text; kr_failed : option text }.

(** the message of the handler that is called, if any *)
Definition peek_message (t0 t : Z) (s : peek) (e : peek_event) : text :=
  match e with
  | PeData w => if pk_pending s then str "DATA: " ++ wire_name w ++ nl ++ rtt_line t0 t else []      (* L95-99 *)
  | PeNack h => if pk_pending s then str "NACK: " ++ reason_text (nack_code h) ++ nl ++ rtt_line t0 t else []   (* L116-120 *)
  | PeExpired => if pk_pending s then str "TIMEOUT" ++ nl else []                                    (* L136-138 *)
  | PeTimer => if pk_timer s then str "TIMEOUT" ++ nl else []
  end.
(** main.cpp L195-196; when processEvents has returned, nothing happens any more *)
Definition kr_step (o : peek_opts) (verbose : bool) (t0 : Z) (r : peek_running) (e : Z * peek_happens) : peek_running :=
  match kr_failed r with
  | Some _ => r
  | None =>
      if peek_ended (kr_peek r) then r
      else match snd e with
           | KEvent x => PeekRunning (peek_step o (kr_peek r) x) (kr_err r ++ say verbose (peek_message t0 (fst e) (kr_peek r) x)) None
           | KFails what => PeekRunning (kr_peek r) (kr_err r) (Some what)
           end
  end.
(** main.cpp L198-203 *)
Definition kr_result (r : peek_running) : run_result :=
  match kr_failed r with
  | Some what => RunResult (concat (pk_out (kr_peek r))) (kr_err r ++ str "ERROR: " ++ what ++ nl) (Some 1%Z)
  | None => RunResult (concat (pk_out (kr_peek r))) (kr_err r)
              (if peek_ended (kr_peek r) then Some (peek_status (pk_result (kr_peek r))) else None)
  end.

(** ndnpeek.cpp L43-80, main.cpp L191-203; [t0]: the time when the Interest has been handed to
    the Face.  A name with several digests is refused by the constructor of Interest; a digest
    without parameters and a packet that is too long are refused when it is sent, which is
    after the message of L75-77. *)
Definition peek_go (a : peek_args) (r : peek_request) (t0 : Z) (es : list (Z * peek_happens)) : run_result :=
  let o := PeekOpts (ka_payload a) (match ka_timeout a with Some _ => true | None => false end) in
  let failure err what := RunResult [] (err ++ str "ERROR: " ++ what ++ nl) (Some 1%Z) in
  let made n := FullInterest (Interest n (pr_canBePrefix r) (pr_mustBeFresh r)) (pr_hint r) (pr_lifetime r) (pr_hopLimit r) (pr_params r) in
  match face_error with
  | Some what => failure [] what
  | None =>
      if Nat.ltb 1 (List.length (filter is_params_digest (pr_name r))) then failure [] create_error
      else
        let f := match create_interest sha256 r with Some f => f | None => made (pr_name r) end in
        let err := say (ka_verbose a) (str "INTEREST: " ++ interest_text f ++ nl) in
        match peek_send sha256 nonce r with
        | None => failure err send_error
        | Some _ => kr_result (fold_left (kr_step o (ka_verbose a) t0) es (PeekRunning (peek_start o) err None))
        end
  end.

(** main.cpp L70-204; [inl]: the text of a po::error *)
Definition peek_program (cmd : text + peek_args) (t0 : Z) (es : list (Z * peek_happens)) : run_result :=
  let bad msg := RunResult [] (str "ERROR: " ++ msg) (Some 2%Z) in
  match cmd with
  | inl e => bad (e ++ nl)                                                   (* L116-119 *)
  | inr a =>
      let go params :=
        match ka_name a with
        | Some n => peek_go a (PeekRequest n (ka_prefix a) (ka_fresh a) (ka_hints a) (ka_lifetime a)
                                 (option_map (fun h => Z.to_N (h mod 256)) (ka_hopLimit a)) params) t0 es
        | None => RunResult [] [] None
        end in
      let file f :=                                                          (* L175-189 *)
        match open_file f with
        | inl e => bad (str "cannot open '" ++ f ++ str "' for reading: " ++ e ++ nl)
        | inr (inl e) => bad (str "cannot read ApplicationParameters from file '" ++ f ++ str "': " ++ e ++ nl)
        | inr (inr p) => go (Some p)
        end in
      if ka_help a then RunResult usage [] (Some 0%Z)                        (* L121-124 *)
      else if ka_version a then RunResult version [] (Some 0%Z)              (* L126-129 *)
      else if match ka_name a with None => true | Some _ => false end
           then bad (str "missing name" ++ nl ++ nl ++ usage)                (* L131-135 *)
      else if match ka_timeout a with Some t => Z.ltb t 0 | None => false end
           then bad (str "timeout cannot be negative" ++ nl)                 (* L137-143 *)
      else if Z.ltb (ka_lifetime a) 0
           then bad (str "InterestLifetime cannot be negative" ++ nl)        (* L145-149 *)
      else if match ka_hopLimit a with Some h => Z.ltb h 0 || Z.ltb 255 h | None => false end
           then bad (str "HopLimit must be between 0 and 255" ++ nl)         (* L151-158 *)
      else match ka_params a, ka_paramsFile a with
           | Some _, Some _ => bad (str "cannot specify both '--app-params' and '--app-params-file'" ++ nl)   (* L160-164 *)
           | Some t, None =>                                                 (* L165-172 *)
               match base64 t with
               | inl e => bad (str "invalid ApplicationParameters string: " ++ e ++ nl)
               | inr p => go (Some p)
               end
           | None, Some f => file f
           | None, None => go None
           end
  end.
End Peek.

(** * ndnpoke *)

(** ndnpoke/main.cpp L58-88 *)
Record poke_args := PokeArgs {
  oa_help : bool; oa_version : bool; oa_unsolicited : bool; oa_verbose : bool; oa_final : bool;
  oa_name : option text; oa_fresh : Z; oa_signing : text; oa_timeout : option Z
}.
Inductive poke_happens := ORegSuccess | ORegFailure (reason : text) | OInterest (i : interest) | OTimer | OFails (what : text).

Section Poke.
Variable digest : packet -> component.
Variable sign : packet -> list N * list N.
Variable interest_text : interest -> text.          (* operator<<(Interest) *)
Variable data_text : packet -> text.                (* operator<<(Data), ends with a newline *)
Variable usage version : text.
(** the constructor of Name: the text of Name::Error, or the name *)
Variable parse_name : text -> text + name.
(** the constructor of SigningInfo: the text of std::invalid_argument, if any *)
Variable signing_error : text -> option text.
(** exceptions of the constructors of Face and KeyChain and of KeyChain::sign; exception of
    Face::put for a packet that is too long *)
Variable start_error : option text.
Variable put_error : text.
(** Face::put encodes the packet when the event loop runs, not at once *)
Variable put_later : bool.

(** [or_failed] as [kr_failed] *)
Record poke_running := PokeRunning { or_poke : poke; or_err : text; or_failed : option text }.

(** ndnpoke.cpp L79-88 *)
Definition or_send (verbose : bool) (d : packet) (s : poke) (err : text) : poke_running :=
  let s' := poke_send (data_fits sign) s d in
  let msg := say verbose (str "DATA: " ++ data_text d) in
  if data_fits sign d then PokeRunning s' (err ++ msg) None
  else PokeRunning s' (err ++ if put_later then msg else []) (Some put_error).
(** ndnpoke.cpp L90-105; the Interest is delivered if the name of the filter is a prefix of its
    name (ndn-cxx) *)
Definition or_onInterest (o : poke_opts) (verbose : bool) (input : list N) (r : poke_running) (i : interest) : poke_running :=
  let d := poke_data o input in
  let err := or_err r ++ say verbose (str "INTEREST: " ++ interest_text i ++ nl) in
  if matches_data digest i d
  then or_send verbose d (Poke RegClosed false (pp_result (or_poke r)) (pp_crash (or_poke r)) (pp_sent (or_poke r))) err
  else PokeRunning (or_poke r) (err ++ say verbose (str "Interest cannot be satisfied" ++ nl)) None.

Definition or_step (o : poke_opts) (verbose : bool) (input : list N) (r : poke_running) (e : poke_happens) : poke_running :=
  match or_failed r with
  | Some _ => r
  | None =>
      let s := or_poke r in
      let next x msg := PokeRunning (poke_step digest (data_fits sign) o input s x) (or_err r ++ msg) None in
      if poke_ended s then r                     (* main.cpp L160: processEvents has returned *)
      else match e with
           | ORegSuccess =>                                                  (* L107-124 *)
               match pp_reg s with
               | RegWaiting => next PoRegSuccess (say verbose (str "Prefix registration successful" ++ nl))
               | _ => r
               end
           | ORegFailure reason =>                                           (* L126-131 *)
               match pp_reg s with
               | RegWaiting => next PoRegFailure (str "Prefix registration failure (" ++ reason ++ str ")" ++ nl)
               | _ => r
               end
           | OInterest i =>
               match pp_reg s with
               | RegActive => if is_prefix_of (pp_name o) (i_name i) then or_onInterest o verbose input r i else r
               | _ => r
               end
           | OTimer => if pp_timer s then next PoTimer (say verbose (str "TIMEOUT" ++ nl)) else r   (* L115-122 *)
           | OFails what => PokeRunning s (or_err r) (Some what)
           end
  end.
Record poke_outcome := PokeOutcome { po_sent : list packet; po_run : run_result }.
(** main.cpp L162-167 *)
Definition or_result (r : poke_running) : poke_outcome :=
  PokeOutcome (pp_sent (or_poke r))
    match or_failed r with
    | Some what => RunResult [] (or_err r ++ str "ERROR: " ++ what ++ nl) (Some 1%Z)
    | None => RunResult [] (or_err r) (if poke_ended (or_poke r) then Some (poke_status (or_poke r)) else None)
    end.

(** main.cpp L154-167, ndnpoke.cpp L46-59 *)
Definition poke_go (a : poke_args) (n : name) (input : list N) (es : list poke_happens) : poke_outcome :=
  let o := PokeOpts n (oa_fresh a) (oa_final a) (oa_unsolicited a) (match oa_timeout a with Some _ => true | None => false end) in
  match start_error with
  | Some what => PokeOutcome [] (RunResult [] (str "ERROR: " ++ what ++ nl) (Some 1%Z))
  | None =>
      let r := if oa_unsolicited a then or_send (oa_verbose a) (poke_data o input) (Poke RegNone false PpUnknown false []) []
               else PokeRunning (Poke RegWaiting false PpUnknown false []) [] None in
      or_result (fold_left (or_step o (oa_verbose a) input) es r)
  end.

(** main.cpp L51-168; [input]: what can be read from the standard input *)
Definition poke_program (cmd : text + poke_args) (input : list N) (es : list poke_happens) : poke_outcome :=
  let bad msg := PokeOutcome [] (RunResult [] (str "ERROR: " ++ msg) (Some 2%Z)) in
  match cmd with
  | inl e => bad (e ++ nl)                                                   (* L95-98 *)
  | inr a =>
      if oa_help a then PokeOutcome [] (RunResult usage [] (Some 0%Z))       (* L100-103 *)
      else if oa_version a then PokeOutcome [] (RunResult version [] (Some 0%Z))   (* L105-108 *)
      else match oa_name a with
           | None => bad (str "missing name" ++ nl ++ nl ++ usage)           (* L110-114 *)
           | Some t =>
               match parse_name t with                                       (* L116-122 *)
               | inl e => bad (str "invalid name: " ++ e ++ nl)
               | inr n =>
                   if Nat.eqb (List.length n) 0
                   then bad (str "name cannot have zero components" ++ nl)   (* L124-127 *)
                   else if Z.ltb (oa_fresh a) 0
                   then bad (str "freshness cannot be negative" ++ nl)       (* L129-133 *)
                   else match signing_error (oa_signing a) with              (* L135-141 *)
                        | Some e => bad (e ++ nl)
                        | None =>
                            match oa_timeout a with                          (* L143-152 *)
                            | Some w =>
                                if oa_unsolicited a
                                then bad (str "conflicting '--unsolicited' and '--timeout' options specified" ++ nl)
                                else if Z.ltb w 0 then bad (str "timeout cannot be negative" ++ nl)
                                else poke_go a n input es
                            | None => poke_go a n input es
                            end
                        end
               end
           end
  end.
End Poke.
