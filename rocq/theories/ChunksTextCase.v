(** An execution of ndncatchunks for the examples. *)
From Verif Require Import Base PipelineBase PipelineSpec AdaptiveModel TlvModel Double WindowModel DumpModel DecimalSpec PingTextSpec
  ChunksTextModel ChunksTextSpec ChunksTextProofs2.
From Coq Require Import String.
From Coq Require Import List.
Import ListNotations.
Local Open Scope Z_scope.
Local Open Scope list_scope.

Lemma cwnd_step' (W E : Type) (P : policy W E) (C : aconfig) (cwnd : W -> f64) rttVar sRtt rtts el (es : list aevent) (e : aevent) :
  passed es < ns_max ->
  let s := a_run P C es in let s' := a_run P C (es ++ [e]) in
  let file es := k_cwnd (k_run P C cwnd rttVar sRtt rtts el es) in
  exists new, a_history s' = a_history s ++ new /\
    (windows new = [] /\ a_cwnd s' = a_cwnd s /\ file (es ++ [e]) = file es \/
     exists l r, windows new = [OWindow (p_floor P (a_cwnd s'))] /\ file (es ++ [e]) = file es ++ l /\
       cwnd_line (passed es) (cwnd (a_cwnd s')) r l).
Proof.
  intros Hp. cbv zeta. destruct (cwnd_step P C cwnd rttVar sRtt rtts el es e Hp) as (new & H1 & H2). exists new. split; [exact H1|].
  destruct H2 as [H2|(l & H2 & H3 & H4)]; [now left|right]. eexists l, _. split; [exact H2|]. split; [exact H3|exact H4].
Qed.
Lemma rtt_step' (W E : Type) (P : policy W E) (C : aconfig) (cwnd : W -> f64) rttVar sRtt rtts el (es : list aevent) (e : aevent) :
  let s := a_run P C es in let s' := a_run P C (es ++ [e]) in
  let file es := k_rtt (k_run P C cwnd rttVar sRtt rtts el es) in
  exists new, a_history s' = a_history s ++ new /\
    (samples new = [] /\ file (es ++ [e]) = file es \/
     exists seg rtt n l, samples new = [ORttSample seg rtt n] /\ file (es ++ [e]) = file es ++ l /\
       let r := p_sample P rtt n (a_rtt s) in rtt_line seg rtt (rttVar r) (sRtt r) (p_rto P r) l).
Proof.
  cbv zeta. destruct (rtt_step P C cwnd rttVar sRtt rtts el es e) as (new & H1 & H2). exists new. split; [exact H1|].
  destruct H2 as [H2|(seg & rtt & n & l & H2 & H3 & H4 & H5)]; [now left|right]. exists seg, rtt, n, l. split; [exact H2|]. split; [exact H4|].
  rewrite <- H3. exact H5.
Qed.

(** options like the default ones of ndncatchunks, and an estimator whose state is the last round-trip
    time and the smallest, sum, number and largest *)
Definition case_opts : aimd_opts := AimdOpts (f_of_Z 2) (f_of_Z 1000) (f_of_Z 1) (f_me 1 (-1)) false.
Definition case_stats : Type := Z * option (Z * Z * Z * Z).
Definition case_sample (rtt _ : Z) (r : case_stats) : case_stats :=
  (rtt, match snd r with None => Some (rtt, rtt, 1, rtt) | Some (mn, sm, n, mx) => Some (Z.min mn rtt, sm + rtt, n + 1, Z.max mx rtt) end).
Definition case_policy : policy window case_stats :=
  aimd_policy case_opts (500000000, None) (fun r => 2 * fst r) case_sample (fun r => (2 * fst r, snd r)).
Definition case_rtts (r : case_stats) : option (Z * Z * Z) :=
  match snd r with None => None | Some (mn, sm, n, mx) => Some (mn, sm / n, mx) end.
Definition case_elapsed (ns : Z) : text := str "1234.57 seconds".
Definition case_cfg : aconfig := AConfig 15 false false d_appnack.
Definition case_packet (mark : bool) (fbi : fbi) (n : nat) : data := Data (repeat 7%N n) fbi mark false.
Definition case_events : list aevent :=
  [AeTick 250000000; AeData 0 (case_packet false FbiAbsent 4000); AeTick 12345; AeData 1 (case_packet true FbiAbsent 4000);
   AeTick 1234317655000; AeData 2 (case_packet false FbiAbsent 4000); AeTick 4000000; AeExpire 4].
Definition case_run : collector window case_stats :=
  k_run case_policy case_cfg w_cwnd (fun r => fst r / 2) fst case_rtts case_elapsed case_events.
(** a transfer of three segments with one retransmission *)
Definition done_events : list aevent :=
  [AeTick 250000000; AeData 0 (case_packet false FbiAbsent 4000); AeTick 12345; AeData 1 (case_packet true FbiAbsent 4000);
   AeTick 50000000; AeExpire 2; AeTick 100000000; AeData 2 (case_packet false (FbiSegment 2) 3456); AeTick 1000].
Definition done_run : collector window case_stats :=
  k_run case_policy case_cfg w_cwnd (fun r => fst r / 2) fst case_rtts case_elapsed done_events.
