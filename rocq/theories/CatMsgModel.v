(** The messages of ndncatchunks about a transfer: what data-fetcher.cpp, discover-version.cpp,
    pipeline-interests-fixed.cpp and pipeline-interests-adaptive.cpp in tools/chunks/catchunks
    write to the standard error, and the texts of their failures.

    The functions below give the messages of each function of FetcherModel, DiscoverModel,
    FixedModel and AdaptiveModel; they follow the same control flow and use those functions for
    the states in between.  BOOST_ASSERTs print nothing, as in a release build. *)
From Verif Require Import Base TlvModel PipelineBase FetcherModel FixedModel AdaptiveModel PutchunksModel DiscoverModel Double
  DumpModel PingModel DecimalModel ChunksTextModel.
From Coq Require Import String.
From Coq Require Import List.
Import ListNotations.
Local Open Scope Z_scope.
Local Open Scope list_scope.

(** One message.  [which]: how many Interests for the segment (the metadata) had been sent; with
    the number of the segment this determines the Interest, which is shown with its nonce. *)
Inductive cmsg :=
| MRequest (seg : N)                            (* fixed.cpp L83, adaptive.cpp L122-123 *)
| MRetransmit (seg : N)                         (* adaptive.cpp L122-123 *)
| MRetries (seg : N) (n : Z)                    (* adaptive.cpp L139-140 *)
| MReceived (seg : N)                           (* fixed.cpp L131 *)
| MReceivedRtt (seg : N) (rtt rto : Z)          (* adaptive.cpp L226-228 *)
| MMark (seg : N) (d : data) (cwnd : f64)       (* adaptive.cpp L251-252 *)
| MLoss (cwnd ssthresh : f64)                   (* adaptive.cpp L349-350 *)
| MNack (seg : N) (which : Z) (r : nack_reason) (* data-fetcher.cpp L109-110, adaptive.cpp L300-301 *)
| MTimeout (seg : N) (which : Z)                (* data-fetcher.cpp L161 *)
| MSummary (s : text)                           (* pipeline-interests.cpp L124-135, adaptive.cpp L421-442 *)
| MDiscNack (which : Z) (r : nack_reason)       (* data-fetcher.cpp L109-110 for the metadata *)
| MDiscTimeout (which : Z)                      (* data-fetcher.cpp L161 for the metadata *)
| MMetadata (p : packet)                        (* discover-version.cpp L73 *)
| MVersion (n : name).                          (* discover-version.cpp L91 *)

(** Why the program fails: what is thrown, and with which data. *)
Inductive failure :=
| FlReason (r : freason)                        (* see PipelineBase, except [RFetch] *)
| FlSegment (seg : N) (c : fcause)              (* [RFetch]: the message of the fetcher *)
| FlDiscovery (c : fcause)                      (* the same for the metadata *)
| FlMetadata (p : packet)                       (* discover-version.cpp L81 *)
| FlNotVersioned (n : name)                     (* discover-version.cpp L86 *)
| FlAppNack (seg : N) (d : data)                (* consumer.cpp L67 *)
| FlFinalBlock (seg : N) (d : data)             (* toSegment: fixed.cpp L136, adaptive.cpp L205 *)
| FlOutOfRange                                  (* at: adaptive.cpp L361 *)
| FlOther (what : text).                        (* any other exception *)

(** the number of Interests sent for a segment, latest observation first *)
Definition interests_for (seg : N) (t : list pobs) : Z :=
  count (fun o => match o with OInterest k _ => N.eqb k seg | _ => false end) t.

(** what a step has added to a trace, in chronological order *)
Definition added (t t' : list pobs) : list pobs := rev (firstn (length t' - length t) t').

(** Why the pipeline has failed, if it has.  [OThrow]: the data callback throws for a Data that it
    was given ([cb]: consumer.cpp L66-67), or toSegment throws for the Data that has arrived
    ([got]), or [at] throws. *)
Definition thrown (cb : data -> bool) (got : option (N * data)) (new : list pobs) : option failure :=
  match find (fun o => match o with OFail _ | OThrow => true | _ => false end) new with
  | Some (OFail r) => Some (FlReason r)
  | Some OThrow =>
      match find (fun o => match o with ODeliver _ d => cb d | _ => false end) new, got with
      | Some (ODeliver seg d), _ => Some (FlAppNack seg d)
      | _, Some (seg, d) => Some (FlFinalBlock seg d)
      | _, None => Some FlOutOfRange
      end
  | _ => None
  end.

(** * The fixed pipeline *)
Section Fixed.
Variable C : xconfig.
Variable summary : xstate -> text.    (* PipelineInterests::printSummary *)

(** fixed.cpp L66-108 *)
Definition mx_fetchNext (s : xstate) : list cmsg :=
  if b_stopping (x_b s) then []
  else if x_hasFailure s then []
  else let '(next, b) := b_getNext (x_b s) in
       if b_hasFbi b && (b_last b <? next)%N then [] else [MRequest next].                 (* L82-83 *)

(** fixed.cpp L53-64 *)
Fixpoint mx_doRun (k i : nat) (s : xstate) : list cmsg :=
  match k with
  | O => []
  | S k' => mx_fetchNext s ++
            (let '(s', ok) := fetchNextSegment C i s in if ok then mx_doRun k' (S i) s' else [])
  end.

(** fixed.cpp L154-161 *)
Definition mx_advance (s : xstate) : list cmsg :=
  if b_allReceived (x_b s) then [MSummary (summary (x_emit ODone s))] else mx_fetchNext s.

(** fixed.cpp L121-162 *)
Definition mx_handleData (seg : N) (d : data) (s : xstate) : list cmsg :=
  if b_stopping (x_b s) then []
  else
    MReceived seg ::                                                                       (* L130-131 *)
    (let s := x_emit (ODeliver seg d) (x_setB (b_received d (x_b s)) s) in
     if xc_cbThrows C d then []
     else if b_hasFbi (x_b s) then mx_advance s
     else match d_fbi d with
          | FbiAbsent => mx_advance s
          | FbiInvalid => []
          | FbiSegment n =>
              let '(l, o, e) := x_learn n (x_slots s) in
              let s := XState (b_setFbi n (x_b s)) l (x_hasFailure s) (x_crashed s) (rev o ++ x_tr s) in
              match e with
              | Some k => []
              | None => mx_advance s
              end
          end).

(** data-fetcher.cpp L87-174: the messages of the fetcher in slot [i], and what the pipeline adds
    to them.  [running]: L91, L102, L154 *)
Definition mx_react (seg : N) (d : data) (running : bool) (s : xstate) (o : fobs) : list cmsg :=
  match o with
  | FoGotNack r => if running then [MNack seg (interests_for seg (x_tr s)) r] else []
  | FoGotTimeout => if running then [MTimeout seg (interests_for seg (x_tr s))] else []
  | FoDataCb => mx_handleData seg d s
  | _ => []
  end.
Fixpoint mx_reacts (i : nat) (seg : N) (d : data) (running : bool) (s : xstate) (os : list fobs) : list cmsg :=
  match os with
  | [] => []
  | o :: os => mx_react seg d running s o ++ mx_reacts i seg d running (x_react C i seg d s o) os
  end.
Definition mx_slotEvent (i : nat) (d : data) (e : fevent) (s : xstate) : list cmsg :=
  match nth_error (x_slots s) i with
  | Some (Some (f, seg)) =>
      let '(f', os) := f_step (x_fconfig C) f e in
      mx_reacts i seg d (f_isRunning f) (x_setSlots (upd i (Some (f', seg)) (x_slots s)) s) os
  | _ => []
  end.
Definition mx_step (s : xstate) (e : xevent) : list cmsg :=
  if x_crashed s then []
  else match e with
  | XeData i d => mx_slotEvent i d FeData s
  | XeNack i r => mx_slotEvent i no_data (FeNack r) s
  | XeTimeout i => mx_slotEvent i no_data FeTimeout s
  | XeTimer i => mx_slotEvent i no_data FeTimer s
  | XeCancel => []
  end.
Definition mx_start : list cmsg := mx_doRun (xc_size C) 0 (x_init C).

(** which event of the fetcher in a slot this is *)
Definition x_fevent (e : xevent) : option (nat * fevent) :=
  match e with
  | XeData i _ => Some (i, FeData) | XeNack i r => Some (i, FeNack r) | XeTimeout i => Some (i, FeTimeout)
  | XeTimer i => Some (i, FeTimer) | XeCancel => None
  end.
Definition x_got (s : xstate) (e : xevent) : option (N * data) :=
  match e with
  | XeData i d => match nth_error (x_slots s) i with Some (Some (_, seg)) => Some (seg, d) | _ => None end
  | _ => None
  end.
Definition fail_cause (os : list fobs) : option fcause :=
  match find (fun o => match o with FoFailCb _ => true | _ => false end) os with Some (FoFailCb c) => Some c | _ => None end.
(** the message that the fetcher passes to the failure callback, fixed.cpp L96-101 *)
Definition x_cause (s : xstate) (e : xevent) : option fcause :=
  match x_fevent e with
  | Some (i, fe) => match nth_error (x_slots s) i with
                    | Some (Some (f, _)) => fail_cause (snd (f_step (x_fconfig C) f fe))
                    | _ => None
                    end
  | None => None
  end.
Definition x_failure (s : xstate) (e : xevent) : option failure :=
  match thrown (xc_cbThrows C) (x_got s e) (added (x_tr s) (x_tr (x_step C s e))) with
  | Some (FlReason (RFetch seg)) =>
      match x_cause s e with Some c => Some (FlSegment seg c) | None => Some (FlReason (RFetch seg)) end
  | f => f
  end.
End Fixed.

(** * The adaptive pipelines *)
Section Adaptive.
Context {W R : Type}.
Variable P : policy W R.
Variable C : aconfig.
Variables cwnd ssthresh : W -> f64.      (* m_cwnd, m_ssthresh *)
Variable summary : @astate W R -> text.  (* PipelineInterestsAdaptive::printSummary *)

(** adaptive.cpp L109-169 *)
Definition ma_sendInterest (seg : N) (retx : bool) (s : @astate W R) : list cmsg :=
  if isStopping s then []
  else if b_hasFbi (a_b s) && N.ltb (b_last (a_b s)) seg then []
  else if negb retx && a_hasFailure s then []
  else
    (if retx then MRetransmit seg else MRequest seg) ::                                    (* L121-124 *)
    (if retx then
       match kget seg (a_retxCount s) with
       | None => []
       | Some n =>
           if negb (Z.eqb (c_maxRetries C) MAX_RETRIES_INFINITE) && (c_maxRetries C <? n + 1)
           then []
           else [MRetries seg (n + 1)]                                                     (* L138-141 *)
       end
     else []).

(** adaptive.cpp L178-191 *)
Definition ma_sendOne (s : @astate W R) : list cmsg :=
  let s := dropSkipped (a_retxq s) s in
  match a_retxq s with
  | seg :: q => ma_sendInterest seg true (set_retxq q s)
  | [] => let '(seg, b) := b_getNext (a_b s) in ma_sendInterest seg false (set_b b s)
  end.
Fixpoint ma_iter (n : nat) (s : @astate W R) : list cmsg :=
  match n with O => [] | S n => ma_sendOne s ++ ma_iter n (sendOne P C s) end.
(** adaptive.cpp L171-193 *)
Definition ma_schedulePackets (s : @astate W R) : list cmsg :=
  let s := if a_nInFlight s <? 0 then emit OAssert s else s in
  ma_iter (Z.to_nat (p_floor P (a_cwnd s) - a_nInFlight s)) s.

(** adaptive.cpp L336-353 *)
Definition ma_recordTimeout (seg : N) (s : @astate W R) : list cmsg :=
  if c_disableCwa C || N.ltb (a_recPoint s) seg then
    let s := recordTimeout P C seg s in [MLoss (cwnd (a_cwnd s)) (ssthresh (a_cwnd s))]
  else [].

(** adaptive.cpp L78-107 *)
Definition ma_checkRto (order : list N) (s : @astate W R) : list cmsg :=
  if isStopping s then []
  else
    let '(s, has, high) :=
      fold_left checkRto1 (visit_order order (keys (a_segs s))) (s, false, 0%N) in
    if a_crashed s then []
    else if has then ma_recordTimeout high s ++ ma_schedulePackets (recordTimeout P C high s) else [].

(** adaptive.cpp L239-262 *)
Definition ma_adaptWindow (seg : N) (d : data) (s : @astate W R) : list cmsg :=
  if d_mark d then
    if negb (c_ignoreCongMarks C) then
      if c_disableCwa C || N.ltb (a_recPoint s) (a_highData s)
      then [MMark seg d (cwnd (a_cwnd (adaptWindow P C seg d s)))]
      else []
    else []
  else [].

(** adaptive.cpp L195-291 *)
Definition ma_handleData (seg : N) (d : data) (s : @astate W R) : list cmsg :=
  if isStopping s then []
  else
    let '(s, continue) := learnFbi d s in
    if negb continue then []
    else match kget seg (a_segs s) with
         | None => []
         | Some i =>
             let rtt := a_now s - si_timeSent i in
             MReceivedRtt seg rtt (si_rto i) ::                                            (* L225-229 *)
             (let s := set_highData (N.max (a_highData s) seg) s in
              let s := if state_eqb (si_state i) InRetxQueue then s
                       else set_nInFlight (a_nInFlight s - 1) s in
              ma_adaptWindow seg d s ++
              (let s := adaptWindow P C seg d s in
               let s := onData C seg d s in
               if a_crashed s then []
               else
                 let s := sampleRtt P seg i rtt s in
                 let s := set_segs (kdel seg (a_segs s)) s in
                 if b_allReceived (a_b s) then [MSummary (summary (emit ODone (cancel s)))]
                 else ma_schedulePackets s))
         end.

(** adaptive.cpp L293-320 *)
Definition ma_handleNack (seg : N) (r : nack_reason) (s : @astate W R) : list cmsg :=
  if isStopping s then []
  else
    MNack seg (interests_for seg (a_tr s)) r ::                                            (* L299-301 *)
    match r with
    | NrCongestion =>
        let s := enqueueForRetransmission seg s in
        if a_crashed s then [] else ma_recordTimeout seg s ++ ma_schedulePackets (recordTimeout P C seg s)
    | _ => []
    end.

(** adaptive.cpp L322-334 *)
Definition ma_handleLifetimeExpiration (seg : N) (s : @astate W R) : list cmsg :=
  if isStopping s then []
  else
    let s := set_nTimeouts (a_nTimeouts s + 1) s in
    let s := enqueueForRetransmission seg s in
    if a_crashed s then [] else ma_recordTimeout seg s ++ ma_schedulePackets (recordTimeout P C seg s).

Definition ma_fromFace (seg : N) (k : @astate W R -> list cmsg) (s : @astate W R) : list cmsg :=
  match kget seg (a_segs s) with
  | Some i =>
      if si_live i
      then k (set_segs (kset seg (SegInfo false (si_timeSent i) (si_rto i) (si_state i)) (a_segs s)) s)
      else []
  | None => []
  end.

Definition ma_step (s : @astate W R) (e : aevent) : list cmsg :=
  if a_crashed s then []
  else match e with
       | AeData seg d => ma_fromFace seg (fun s => ma_handleData seg d (emit (OGotData seg d) s)) s
       | AeNack seg r => ma_fromFace seg (fun s => ma_handleNack seg r (emit (OGotNack seg r) s)) s
       | AeExpire seg => ma_fromFace seg (fun s => ma_handleLifetimeExpiration seg (emit (OGotExpiry seg) s)) s
       | AeRto order => if a_timer s then ma_checkRto order (set_timer false s) else []
       | AeTick dt => []
       | AeCancel => []
       end.

(** adaptive.cpp L54-69 *)
Definition ma_start : list cmsg :=
  let s := a_init P in
  if b_allReceived (a_b s) then [MSummary (summary (emit ODone (cancel s)))] else ma_schedulePackets (set_timer true s).

Definition a_got (e : aevent) : option (N * data) := match e with AeData seg d => Some (seg, d) | _ => None end.
Definition a_failure (s : @astate W R) (e : aevent) : option failure :=
  thrown (c_cbThrows C) (a_got e) (added (a_tr s) (a_tr (a_step P C s e))).
End Adaptive.

(** * The version discovery *)

(** discovery Interests sent so far *)
Definition disc_sent (dh : list dobs) : Z := count (fun o => match o with DoInterest _ => true | _ => false end) dh.

(** discover-version.cpp L69-95, with data-fetcher.cpp L87-174 *)
Definition md_step (st : fetcher * list dobs) (e : devent) : list cmsg :=
  let f := fst st in
  match f_phase f with
  | PhInterest =>
      if negb (f_isRunning f) then []
      else match e with
           | DeData p =>
               MMetadata p ::
               match metadata_of p with
               | Some n => if ends_with_version n then [MVersion n] else []
               | None => []
               end
           | DeNack r => [MDiscNack (disc_sent (snd st)) r]
           | DeTimeout => [MDiscTimeout (disc_sent (snd st))]
           | DeTimer => []
           end
  | _ => []
  end.

(** the argument of onDiscoveryFailure *)
Definition d_failure (c : dconfig) (st : fetcher * list dobs) (e : devent) : option failure :=
  let os := snd (f_step (d_fconfig c) (fst st) (fetch_event e)) in
  match fail_cause os with
  | Some cause => Some (FlDiscovery cause)                                                 (* L60-65 *)
  | None =>
      match e with
      | DeData p =>
          if existsb (fun o => match o with FoDataCb => true | _ => false end) os then
            match metadata_of p with
            | None => Some (FlMetadata p)                                                  (* L79-82 *)
            | Some n => if ends_with_version n then None else Some (FlNotVersioned n)      (* L84-87 *)
            end
          else None
      | _ => None
      end
  end.

(** * Whole runs: the messages of the start and of every event *)
Fixpoint mx_from (C : xconfig) (summary : xstate -> text) (s : xstate) (es : list xevent) : list cmsg :=
  match es with [] => [] | e :: es => mx_step C summary s e ++ mx_from C summary (x_step C s e) es end.
Definition mx_run (C : xconfig) (summary : xstate -> text) (es : list xevent) : list cmsg :=
  mx_start C ++ mx_from C summary (x_doRun C (xc_size C) 0 (x_init C)) es.
Fixpoint ma_from {W R} (P : policy W R) (C : aconfig) (cwnd ssthresh : W -> f64) (summary : @astate W R -> text)
    (s : @astate W R) (es : list aevent) : list cmsg :=
  match es with
  | [] => []
  | e :: es => ma_step P C cwnd ssthresh summary s e ++ ma_from P C cwnd ssthresh summary (a_step P C s e) es
  end.
Definition ma_run {W R} (P : policy W R) (C : aconfig) (cwnd ssthresh : W -> f64) (summary : @astate W R -> text)
    (es : list aevent) : list cmsg :=
  ma_start P C summary ++ ma_from P C cwnd ssthresh summary (doRun P C (a_init P)) es.

(** the failure that ends the run, if there is one; the start cannot fail *)
Fixpoint x_failure_from (C : xconfig) (s : xstate) (es : list xevent) : option failure :=
  match es with
  | [] => None
  | e :: es => match x_failure C s e with Some f => Some f | None => x_failure_from C (x_step C s e) es end
  end.
Definition x_failure_run (C : xconfig) (es : list xevent) : option failure :=
  x_failure_from C (x_doRun C (xc_size C) 0 (x_init C)) es.
Fixpoint a_failure_from {W R} (P : policy W R) (C : aconfig) (s : @astate W R) (es : list aevent) : option failure :=
  match es with
  | [] => None
  | e :: es => match a_failure P C s e with Some f => Some f | None => a_failure_from P C (a_step P C s e) es end
  end.
Definition a_failure_run {W R} (P : policy W R) (C : aconfig) (es : list aevent) : option failure :=
  a_failure_from P C (doRun P C (a_init P)) es.
Fixpoint d_failure_from (c : dconfig) (st : fetcher * list dobs) (es : list devent) : option failure :=
  match es with
  | [] => None
  | e :: es => match d_failure c st e with Some f => Some f | None => d_failure_from c (d_step c st e) es end
  end.
(** [d_run] starts like this (discover-version.cpp L35-67) *)
Definition d_start (c : dconfig) : fetcher * list dobs := (fst f_start, [DoInterest (discovery_interest (dc_prefix c))]).
Definition d_failure_run (c : dconfig) (es : list devent) : option failure :=
  if d_skip c then None else d_failure_from c (d_start c) es.
Fixpoint md_from (c : dconfig) (st : fetcher * list dobs) (es : list devent) : list cmsg :=
  match es with [] => [] | e :: es => md_step st e ++ md_from c (d_step c st e) es end.
Definition md_run (c : dconfig) (es : list devent) : list cmsg := if d_skip c then [] else md_from c (d_start c) es.
