(** Properties of ndnping and ndnpingserver: C29, C30, C31 (counters), C33-C35. *)
From Verif Require Import Base TlvModel PingModel PingSpec PingProofs.
Local Open Scope Z_scope.

Definition exOpts : gopts := GOpts [Comp TGeneric [65%N]] false 3 18446744073709551614 [98%N].
Definition exEvents : list gevent :=
  [GeTimer; GeData 18446744073709551614 100; GeTimer; GeTimer; GeNack 0 5; GeTimeout 18446744073709551615].
Example exOpts_valid : valid_gopts exOpts.
Proof. split; [right|]; reflexivity. Qed.

(** * C29 The client sends what was asked *)

(** Never more than n Interests. *)
Theorem C29_at_most_n :
  forall (o : gopts), valid_gopts o -> forall es, 0 < g_nPings o ->
    Z.of_nat (length (sent_seqs (c_hist (g_run o es)))) <= g_nPings o.
Proof. exact ping_bound. Qed.
Print Assumptions C29_at_most_n.

(** The sequence numbers are consecutive, modulo 2^64. *)
Theorem C29_consecutive :
  forall (o : gopts), valid_gopts o -> forall es i k,
    nth_error (sent_seqs (c_hist (g_run o es))) i = Some k ->
    k = ((g_startSeq o + N.of_nat i) mod 18446744073709551616)%N.
Proof. exact ping_sequence. Qed.
Print Assumptions C29_consecutive.

(** The names are pairwise different (as long as the sequence numbers did not wrap) ... *)
Theorem C29_names_different :
  forall (o : gopts), valid_gopts o -> forall es,
    Z.of_nat (length (sent_seqs (c_hist (g_run o es)))) <= 18446744073709551616 ->
    NoDup (map (fun k => i_name (ping_interest o k)) (sent_seqs (c_hist (g_run o es)))).
Proof. exact names_nodup. Qed.
Print Assumptions C29_names_different.

(** ... and under prefix/ping. *)
Theorem C29_names_prefix :
  forall (o : gopts) k, exists rest,
    i_name (ping_interest o k) = g_prefix o ++ [Comp TGeneric [112; 105; 110; 103]%N] ++ rest /\ rest <> [].
Proof. exact ping_name_prefix. Qed.
Print Assumptions C29_names_prefix.

(** Unless interrupted, every expiry of the timer sends another ping until n are sent
    (forever if there is no limit) ... *)
Theorem C29_progress :
  forall (o : gopts), valid_gopts o -> forall es, ~ In GeInterrupt es ->
    (g_nPings o < 0 \/ Z.of_nat (length (sent_seqs (c_hist (g_run o es)))) < g_nPings o) ->
    length (sent_seqs (c_hist (g_run o (es ++ [GeTimer])))) = S (length (sent_seqs (c_hist (g_run o es)))).
Proof. exact ping_progress. Qed.
Print Assumptions C29_progress.

(** ... and the program does not end before. *)
Theorem C29_all_sent :
  forall (o : gopts), valid_gopts o -> forall es, ~ In GeInterrupt es -> 0 < g_nPings o ->
    g_ended (g_run o es) = true -> Z.of_nat (length (sent_seqs (c_hist (g_run o es)))) = g_nPings o.
Proof. exact ping_ended_all. Qed.
Print Assumptions C29_all_sent.

Theorem C29_no_assertion_failure :
  forall (o : gopts), valid_gopts o -> forall es, ~ In GAssert (c_hist (g_run o es)).
Proof. exact ping_no_assert. Qed.
Print Assumptions C29_no_assertion_failure.

(** three pings, wrapping around, with an identifier *)
Example C29_case :
  sent_seqs (c_hist (g_run exOpts exEvents)) = [18446744073709551614; 18446744073709551615; 0]%N /\
  i_name (ping_interest exOpts 0) =
    [Comp TGeneric [65]; Comp TGeneric [112; 105; 110; 103]; Comp TGeneric [98]; Comp TGeneric [48]]%N /\
  g_ended (g_run exOpts exEvents) = true.
Proof. vm_compute. auto. Qed.

(** * C30 The client finishes exactly once *)

(** Nothing happens after the notification; in particular there is only one. *)
Theorem C30_finish_last :
  forall (o : gopts), valid_gopts o -> forall es h1 h2,
    c_hist (g_run o es) = h1 ++ GFinish :: h2 -> h2 = [] /\ ~ In GFinish h1.
Proof. exact finish_last. Qed.
Print Assumptions C30_finish_last.

(** It is there iff all n pings are sent and every one of them has its answer. *)
Theorem C30_finish_iff :
  forall (o : gopts), valid_gopts o -> forall es,
    In GFinish (c_hist (g_run o es)) <->
    (Z.of_nat (length (sent_seqs (c_hist (g_run o es)))) = g_nPings o /\
     Permutation (sent_seqs (c_hist (g_run o es))) (settled_seqs (c_hist (g_run o es)))).
Proof. exact finish_iff. Qed.
Print Assumptions C30_finish_iff.

(** Every ping is reported at most once, as Data, Nack or timeout, and only if it was sent. *)
Theorem C30_one_result_per_ping :
  forall (o : gopts), valid_gopts o -> forall es, exists unanswered,
    Permutation (sent_seqs (c_hist (g_run o es))) (unanswered ++ settled_seqs (c_hist (g_run o es))).
Proof. exact ping_settled. Qed.
Print Assumptions C30_one_result_per_ping.

Example C30_case :
  c_hist (g_run exOpts exEvents) =
  [GInterest 18446744073709551614; GInterest 18446744073709551615; GData 18446744073709551614 100;
   GInterest 0; GNack 0 5; GTimeout 18446744073709551615; GFinish]%N.
Proof. vm_compute. reflexivity. Qed.

(** * C31 The counters *)

(** At any time: received and nacked are what their names say, and sent is the number of
    pings that have their answer. *)
Theorem C31_counters :
  forall h, counters_of h =
    Counters (Z.of_nat (length (data_seqs h ++ nack_seqs h ++ timeout_seqs h)))
             (Z.of_nat (length (data_seqs h))) (Z.of_nat (length (nack_seqs h))).
Proof. exact counters_eq. Qed.
Print Assumptions C31_counters.

(** At the end of the program, sent is the number of Interests. *)
Theorem C31_counters_at_end :
  forall (o : gopts), valid_gopts o -> forall es, g_ended (g_run o es) = true ->
    n_sent (counters_of (c_hist (g_run o es))) = Z.of_nat (length (sent_seqs (c_hist (g_run o es)))).
Proof. exact counters_when_ended. Qed.
Print Assumptions C31_counters_at_end.

(** No counter exceeds the number of Interests sent: below 2^31 pings, none overflows. *)
Theorem C31_counters_range :
  forall (o : gopts), valid_gopts o -> forall es,
    let sent := Z.of_nat (length (sent_seqs (c_hist (g_run o es)))) in
    let n := counters_of (c_hist (g_run o es)) in
    0 <= c_nSent (g_run o es) <= sent /\ -1 <= c_nOut (g_run o es) <= sent /\
    0 <= n_received n /\ 0 <= n_nacked n /\ n_received n + n_nacked n <= n_sent n <= sent.
Proof. exact counters_range. Qed.
Print Assumptions C31_counters_range.

Example C31_counters_case : counters_of (c_hist (g_run exOpts exEvents)) = Counters 3 1 1.
Proof. vm_compute. reflexivity. Qed.

(** * C33 The exit status *)

(** 0 iff every ping sent was answered with Data, otherwise 1; with or without
    interruption. *)
Theorem C33_exit_status :
  forall (o : gopts), valid_gopts o -> forall es, g_ended (g_run o es) = true ->
    (exit_status (c_hist (g_run o es)) = 0 <->
     Permutation (sent_seqs (c_hist (g_run o es))) (data_seqs (c_hist (g_run o es)))) /\
    (exit_status (c_hist (g_run o es)) = 0 \/ exit_status (c_hist (g_run o es)) = 1).
Proof. exact exit_iff. Qed.
Print Assumptions C33_exit_status.

(** The program ends after the finish notification ... *)
Theorem C33_ends :
  forall (o : gopts), valid_gopts o -> forall es,
    In GFinish (c_hist (g_run o es)) -> g_ended (g_run o es) = true.
Proof. exact ended_after_finish. Qed.
Print Assumptions C33_ends.

(** ... and, when interrupted, sends nothing more and ends as soon as the outstanding pings
    have their answers. *)
Theorem C33_interrupted :
  forall (o : gopts), valid_gopts o -> forall es1 es2,
    let h := c_hist (g_run o (es1 ++ GeInterrupt :: es2)) in
    sent_seqs h = sent_seqs (c_hist (g_run o es1)) /\
    (g_ended (g_run o (es1 ++ GeInterrupt :: es2)) = true <-> Permutation (sent_seqs h) (settled_seqs h)).
Proof. exact interrupt_stops. Qed.
Print Assumptions C33_interrupted.

Example C33_case_failed : exit_status (c_hist (g_run exOpts exEvents)) = 1.
Proof. vm_compute. reflexivity. Qed.
(** interrupted after two of three pings, both answered *)
Example C33_case_interrupted :
  let s := g_run exOpts [GeTimer; GeData 18446744073709551614 7; GeInterrupt; GeTimer; GeData 18446744073709551615 9] in
  g_ended s = true /\ exit_status (c_hist s) = 0 /\ length (sent_seqs (c_hist s)) = 2%nat.
Proof. vm_compute. auto. Qed.

(** * C34 The server *)

(** Without interruption the server answers the Interests under prefix/ping, in order, each
    once, with Data of the same name, the configured freshness and a payload of the
    configured size: all of them, or with a limit the first ones, and then it finishes. *)
Theorem C34_server_answers :
  forall (o : sopts) es, ~ In SeInterrupt es ->
    let pings := pings_in o es in
    let served := if (s_nMax o =? 0)%N then pings else firstn (N.to_nat (s_nMax o)) pings in
    s_hist (s_run o es) =
      map (fun i => SAnswer i (Packet (i_name i) (repeat 97%N (s_size o)) None (s_fresh o))) served ++
      (if (0 <? s_nMax o)%N && (s_nMax o <=? N.of_nat (length pings))%N then [SFinish] else []) /\
    s_nPings (s_run o es) = N.of_nat (length served).
Proof. exact server_answers. Qed.
Print Assumptions C34_server_answers.

(** After an interruption nothing more happens. *)
Theorem C34_server_interrupted :
  forall (o : sopts) es1 es2,
    s_hist (s_run o (es1 ++ SeInterrupt :: es2)) = s_hist (s_run o es1).
Proof. exact server_interrupted. Qed.
Print Assumptions C34_server_interrupted.

Example C34_case :
  let o := SOpts [Comp TGeneric [65%N]] 1000 2 3 in
  let other := Interest [Comp TGeneric [65%N]; Comp TGeneric [66%N]] false true in
  let ping k := ping_interest exOpts k in
  s_hist (s_run o (map SeInterest [ping 1; other; ping 2; ping 3]%N)) =
  [SAnswer (ping 1%N) (pong o (ping 1%N)); SAnswer (ping 2%N) (pong o (ping 2%N)); SFinish].
Proof. vm_compute. reflexivity. Qed.

(** * C35 Client and server *)

(** Data made by the server for the ping k satisfies the ping j only if j = k; it satisfies
    the ping k iff the client allows stale Data or the server's freshness period is
    positive.  Missing from the claim: the other case, see the refutation. *)
Theorem C35_answer_satisfies_partial :
  forall (digest : packet -> component) (co : gopts) (so : sopts) k j,
    (k < 18446744073709551616)%N -> (j < 18446744073709551616)%N ->
    (matches_data digest (ping_interest co j) (pong so (ping_interest co k)) = true <->
     j = k /\ (g_stale co = true \/ 0 < s_fresh so)).
Proof. exact pong_satisfies. Qed.
Print Assumptions C35_answer_satisfies_partial.

(** ndnpingserver -x 0 and ndnping without -a: the server's answer does not satisfy the ping
    that caused it. *)
Theorem C35_answer_satisfies_refuted :
  exists co so, valid_gopts co /\ forall digest k, (k < 18446744073709551616)%N ->
    matches_data digest (ping_interest co k) (pong so (ping_interest co k)) = false.
Proof.
  exists exOpts, (SOpts [Comp TGeneric [65%N]] 0 0 0). split; [exact exOpts_valid|]. intros digest k Hk.
  destruct (matches_data _ _ _) eqn:E; [|reflexivity].
  apply (pong_satisfies digest exOpts (SOpts [Comp TGeneric [65%N]] 0 0 0)) in E; [|exact Hk|exact Hk]. destruct E as [_ [E|E]]; discriminate.
Qed.
Print Assumptions C35_answer_satisfies_refuted.

(** Whatever the network loses, delays, reorders or duplicates, the client does not count
    more replies than the server gave answers. *)
Theorem C35_received_le_answered :
  forall (digest : packet -> component) (co : gopts) (so : sopts), valid_gopts co -> forall es,
    let y := y_run digest co so es in
    Z.of_nat (length (sent_seqs (c_hist (y_client y)))) <= 18446744073709551616 ->
    n_received (counters_of (c_hist (y_client y))) <= Z.of_N (s_nPings (y_server y)).
Proof. exact received_le_answered. Qed.
Print Assumptions C35_received_le_answered.

(** duplicated Interests and Data *)
Example C35_case :
  let y := y_run (fun _ => Comp 1 []) exOpts (SOpts [Comp TGeneric [65%N]] 1000 0 0)
                 [NeClient GeTimer; NeToServer 1; NeToServer 1; NeToServer 0; NeFromServer 0 5; NeFromServer 1 6; NeFromServer 2 7] in
  n_received (counters_of (c_hist (y_client y))) = 2 /\ s_nPings (y_server y) = 3%N.
Proof. vm_compute. auto. Qed.
