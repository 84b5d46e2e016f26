(** Properties of the consumer: C21, C22. *)
From Verif Require Import Base ConsumerModel ConsumerSpec ConsumerProofs.

(** C21: whatever the order in which distinct segments arrive, the output is the
    concatenation of the longest gap-free run from segment 0. *)
Theorem C21_consumer_in_order :
  forall (segs : list (N * data)),
    NoDup (map fst segs) -> (forall k d, In (k, d) segs -> d_appnack d = false) ->
    gapfree segs (co_out (co_run (map (fun x => CeAccept (fst x) (snd x)) segs))).
Proof. exact consumer_in_order_lemma. Qed.
Print Assumptions C21_consumer_in_order.

(** ... and there is only one such output *)
Theorem C21_output_unique :
  forall segs out1 out2,
    NoDup (map fst segs) -> gapfree segs out1 -> gapfree segs out2 -> out1 = out2.
Proof. exact gapfree_unique. Qed.
Print Assumptions C21_output_unique.

Example C21_case :
  let d c := Data c FbiAbsent false false in
  let segs := [(1, d [3; 4]); (0, d [1; 2]); (3, d [9]); (2, d [5])]%N in
  co_out (co_run (map (fun x => CeAccept (fst x) (snd x)) (firstn 3 segs))) = [1; 2; 3; 4]%N /\
  co_out (co_run (map (fun x => CeAccept (fst x) (snd x)) segs)) = [1; 2; 3; 4; 5; 9]%N.
Proof. vm_compute. auto. Qed.

(** C22: the first segment that fails validation or is an application Nack ends the program
    with the documented status; neither it nor anything after it is written. *)
Theorem C22_bad_segment_aborts :
  forall (before after : list cevent) (bad : cevent),
    Forall (fun e => is_bad e = false) before -> is_bad bad = true ->
    let c := co_run (before ++ bad :: after) in
    co_out c = co_out (co_run before) /\
    co_exit c = Some (match bad with CeReject _ _ => 5 | CeAccept _ _ => 3 end).
Proof. exact consumer_bad_lemma. Qed.
Print Assumptions C22_bad_segment_aborts.

Theorem C22_good_segments_do_not_abort :
  forall (es : list cevent), Forall (fun e => is_bad e = false) es -> co_exit (co_run es) = None.
Proof. exact consumer_good_lemma. Qed.
Print Assumptions C22_good_segments_do_not_abort.

Example C22_case :
  let d c := Data c FbiAbsent false false in
  let nack c := Data c FbiAbsent false true in
  let c := co_run [CeAccept 1 (d [3]); CeAccept 0 (nack [7]); CeAccept 0 (d [1])]%N in
  co_out c = [] /\ co_exit c = Some 3 /\
  co_exit (co_run [CeAccept 0 (d [1]); CeReject 1 (d [2])]%N) = Some 5.
Proof. vm_compute. auto. Qed.
