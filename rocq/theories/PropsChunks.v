(** Properties of ndnputchunks, of version discovery and of the composition with
    ndncatchunks: C23-C28. *)
From Verif Require Import Base TlvModel TlvProofs PipelineBase PipelineSpec FetcherModel PutchunksModel PutchunksSpec PutchunksProofs.
From Verif Require Import DiscoverModel DiscoverSpec DiscoverProofs CatchunksModel CatchunksSpec CatchunksProofs.
From Verif Require Import AdaptiveModel AdaptiveWitness FixedModel ChunksTheorems.
Local Open Scope N_scope.

(** * C23 Version discovery *)

(** There is at most one outcome, and nothing happens after it. *)
Theorem C23_one_outcome :
  forall (c : dconfig) (es : list devent) h1 o h2,
    d_run c es = h1 ++ o :: h2 -> is_outcome o = true ->
    h2 = [] /\ Forall (fun o' => is_outcome o' = false) h1.
Proof. exact discovery_outcome_last. Qed.
Print Assumptions C23_one_outcome.

(** No Interest at all if discovery is disabled or the name already has a version. *)
Theorem C23_skipped :
  forall (c : dconfig) (es : list devent),
    dc_disable c = true \/ (exists pre v, dc_prefix c = pre ++ [v] /\ is_version v = true) ->
    d_run c es = [DoSuccess (dc_prefix c)].
Proof. exact discovery_skip. Qed.
Print Assumptions C23_skipped.

(** Otherwise the name comes from valid metadata that was received. *)
Theorem C23_success_justified :
  forall (c : dconfig) (es : list devent) n,
    dc_disable c = false -> (forall pre v, dc_prefix c = pre ++ [v] -> is_version v = false) ->
    In (DoSuccess n) (d_run c es) ->
    exists p, In (DoGotData p) (d_run c es) /\ announces p n.
Proof. exact discovery_success. Qed.
Print Assumptions C23_success_justified.

(** Failure is reported only for a reason: invalid metadata, a Nack other than duplicate or
    congestion, or more Nacks or timeouts than retries. *)
Theorem C23_failure_justified :
  forall (c : dconfig) (es : list devent) h1 h2,
    d_run c es = h1 ++ DoFailure :: h2 -> failure_allowed (dc_retries c) h1.
Proof. exact discovery_failure. Qed.
Print Assumptions C23_failure_justified.

(** Until there is an outcome, valid metadata leads to success (at once, or after the
    pending backoff). *)
Theorem C23_never_stuck :
  forall (c : dconfig) (es : list devent),
    Forall (fun o => is_outcome o = false) (d_run c es) ->
    forall p n, announces p n ->
    (exists e, d_run c (es ++ [e; DeData p]) = d_run c (es ++ [e]) ++ [DoGotData p; DoSuccess n]) \/
    d_run c (es ++ [DeData p]) = d_run c es ++ [DoGotData p; DoSuccess n].
Proof. exact discovery_waiting. Qed.
Print Assumptions C23_never_stuck.

Definition exA : name := [Comp TGeneric [65]].
Definition exAv : name := exA ++ [version_comp CvTyped 7].
Definition exMeta : packet := Packet (exA ++ [metadata_comp; version_comp CvTyped 9; segment_comp CvTyped 0]) (encode_name exAv) None 10.
Example C23_case :
  d_run (DConfig false 2 exA) [DeTimeout; DeNack NrCongestion; DeTimer; DeData exMeta] =
  [DoInterest (discovery_interest exA); DoGotTimeout; DoInterest (discovery_interest exA);
   DoGotNack NrCongestion; DoBackoff 1; DoInterest (discovery_interest exA); DoGotData exMeta; DoSuccess exAv].
Proof. vm_compute. reflexivity. Qed.
Example C23_case_fail :
  d_run (DConfig false 0 exA) [DeTimeout; DeData exMeta] =
  [DoInterest (discovery_interest exA); DoGotTimeout; DoFailure] /\
  d_run (DConfig false 0 exA) [DeData (Packet exA [] None 10)] =
  [DoInterest (discovery_interest exA); DoGotData (Packet exA [] None 10); DoFailure].
Proof. vm_compute. auto. Qed.

(** * C24 End to end *)

(** The producer publishes [input]; the client is started with its name, discovers the
    version (unless given), and fetches: at every moment standard output is a prefix of
    [input], and it is [input] when the pipeline reports completion. *)
Theorem C24_adaptive_end_to_end :
  forall digest cv now0 (Hnow : now0 < 18446744073709551616)
         o (Hsize : (0 < po_size o)%nat) prefix input (Hinput : N.of_nat (length input) + 1 < 18446744073709551616),
    let P := make_producer cv now0 o prefix input in
    forall W R (pol : policy W R) (C : aconfig) (es : list aevent) dc des vname ccv mbf,
    encodable (pr_vprefix P) ->
    client_of digest cv P dc (d_run dc des) -> In (DoSuccess vname) (d_run dc des) ->
    let h := a_history (a_run pol C es) in
    (forall h1 h2, h = h1 ++ h2 -> honest_network digest cv P ccv vname mbf h1 -> is_prefix (catchunks_stdout h1) input) /\
    (In ODone h -> honest_network digest cv P ccv vname mbf h -> catchunks_stdout h = input).
Proof. exact @e2e_adaptive. Qed.
Print Assumptions C24_adaptive_end_to_end.

Theorem C24_fixed_end_to_end :
  forall digest cv now0 (Hnow : now0 < 18446744073709551616)
         o (Hsize : (0 < po_size o)%nat) prefix input (Hinput : N.of_nat (length input) + 1 < 18446744073709551616),
    let P := make_producer cv now0 o prefix input in
    forall (C : xconfig) (es : list xevent) dc des vname ccv mbf, (0 < xc_size C)%nat ->
    encodable (pr_vprefix P) ->
    client_of digest cv P dc (d_run dc des) -> In (DoSuccess vname) (d_run dc des) ->
    let h := x_history (x_run C es) in
    (forall h1 h2, h = h1 ++ h2 -> honest_network digest cv P ccv vname mbf h1 -> is_prefix (catchunks_stdout h1) input) /\
    (In ODone h -> honest_network digest cv P ccv vname mbf h -> catchunks_stdout h = input).
Proof. exact e2e_fixed. Qed.
Print Assumptions C24_fixed_end_to_end.

(** five bytes in segments of two; the client discovers the version, segment 1 is lost once *)
Definition exdig (p : packet) : component := Comp TImplicitDigest [].
Definition exP : producer := make_producer CvTyped 7 (POpts 2 1000) exA [1; 2; 3; 4; 5].
Definition exdc : dconfig := DConfig false 15 exA.
Definition exes : list xevent :=
  [XeData 0 (dat [1; 2] (FbiSegment 2)); XeTimeout 1; XeData 2 (dat [5] (FbiSegment 2));
   XeData 1 (dat [3; 4] (FbiSegment 2))].
Example C24_case :
  let h := x_history (x_run (XConfig 3 15 d_appnack) exes) in
  encodable (pr_vprefix exP) /\ client_of exdig CvTyped exP exdc (d_run exdc [DeData exMeta]) /\
  In (DoSuccess exAv) (d_run exdc [DeData exMeta]) /\
  honest_network exdig CvTyped exP CvTyped exAv true h /\ In ODone h /\ catchunks_stdout h = [1; 2; 3; 4; 5].
Proof.
  split; [split; [repeat constructor|reflexivity]|]. split; [right|].
  { split; [reflexivity|]. split; [reflexivity|]. split.
    - intros pre v E. destruct pre as [|x [|y pre]]; injection E; intros; subst; try discriminate. reflexivity.
    - intros p Hp. vm_compute in Hp. destruct Hp as [Hp|[Hp|[Hp|[]]]]; try discriminate. injection Hp as <-.
      split; [|vm_compute; reflexivity]. exists 9, (discovery_interest exA). vm_compute. tauto. }
  split; [vm_compute; tauto|]. split; [|split; [vm_compute; tauto|vm_compute; reflexivity]].
  assert (H : forall k, In k [0; 1; 2] -> exists p, nth_error (pr_store exP) (N.to_nat k) = Some p /\
     published exdig CvTyped exP p /\ matches_data exdig (segment_interest CvTyped exAv k true) p = true).
  { intros k [<-|[<-|[<-|[]]]]; (eexists; split; [vm_compute; reflexivity|split; [|vm_compute; reflexivity]]).
    - exists 0, (segment_interest CvTyped exAv 0 true). vm_compute. tauto.
    - exists 0, (segment_interest CvTyped exAv 1 true). vm_compute. tauto.
    - exists 0, (segment_interest CvTyped exAv 2 true). vm_compute. tauto. }
  assert (G : Forall (fun ob => match ob with OGotData k d => k < 18446744073709551616 /\ In k [0; 1; 2] /\
       match nth_error (pr_store exP) (N.to_nat k) with Some p => seen_as p d | None => False end | _ => True end)
       (x_history (x_run (XConfig 3 15 d_appnack) exes))).
  { match goal with |- Forall _ ?l => let l' := eval vm_compute in l in change l with l' end.
    repeat (constructor; [first [exact I | vm_compute; tauto]|]). constructor. }
  rewrite Forall_forall in G. intros seg d Hd. specialize (G _ Hd). cbn beta iota in G. destruct G as (G1 & G2 & G3).
  split; [exact G1|]. destruct (H seg G2) as (p & H1 & H2 & H3). rewrite H1 in G3. exists p. exact (conj H2 (conj G3 H3)).
Qed.

(** * C25 The producer's answers *)

Theorem C25_at_most_one_reply :
  forall digest cv now0 (Hnow : now0 < 18446744073709551616) o (Hsize : (0 < po_size o)%nat) prefix input now i,
    (length (producer_replies digest cv now (make_producer cv now0 o prefix input) i) <= 1)%nat.
Proof. exact replies_at_most_one. Qed.
Print Assumptions C25_at_most_one_reply.

(** which Interests are answered at all *)
Theorem C25_answered :
  forall digest cv now0 o prefix input now i,
    let P := make_producer cv now0 o prefix input in
    producer_replies digest cv now P i <> [] <->
    (exists rest, i_name i = pr_vprefix P ++ rest) \/ i_name i = pr_prefix P \/
    (exists rest, i_name i = pr_prefix P ++ [metadata_comp] ++ rest).
Proof. exact replies_iff'. Qed.
Print Assumptions C25_answered.

(** a request for a segment gets this segment, or a Nack if it does not exist *)
Theorem C25_segment_request :
  forall digest cv now0 o prefix input,
    now0 < 18446744073709551616 -> (0 < po_size o)%nat ->
    let P := make_producer cv now0 o prefix input in
    exists chunks, segmentation (po_size o) input chunks /\
      forall now cbp mbf k, k < 18446744073709551616 ->
      producer_replies digest cv now P (Interest (pr_vprefix P ++ [segment_comp cv k]) cbp mbf) =
      [match nth_error chunks (N.to_nat k) with
       | Some c => RpData (Packet (pr_vprefix P ++ [segment_comp cv k]) c
                                  (Some (segment_comp cv (N.of_nat (length chunks - 1)))) (po_fresh o))
       | None => RpNack
       end].
Proof. exact replies_described. Qed.
Print Assumptions C25_segment_request.

(** a request for the content, with or without version, gets the first segment *)
Theorem C25_prefix_request :
  forall digest cv now0 (Hnow : now0 < 18446744073709551616) o (Hsize : (0 < po_size o)%nat) prefix input now i,
    let P := make_producer cv now0 o prefix input in
    i_name i = pr_prefix P \/ i_name i = pr_vprefix P ->
    i_canBePrefix i = true -> (i_mustBeFresh i = true -> (0 < po_fresh o)%Z) ->
    exists d, producer_replies digest cv now P i = [RpData d] /\ nth_error (pr_store P) 0 = Some d.
Proof. exact replies_first. Qed.
Print Assumptions C25_prefix_request.

(** Data in reply to an Interest satisfies it.  Partial: the full claim has no hypotheses on
    the Interest; it is refuted below. *)
Theorem C25_answer_satisfies_partial :
  forall digest cv now0 (Hnow : now0 < 18446744073709551616) o (Hsize : (0 < po_size o)%nat) prefix input now i d,
    let P := make_producer cv now0 o prefix input in
    In (RpData d) (producer_replies digest cv now P i) ->
    (i_mustBeFresh i = true -> (0 < po_fresh o)%Z) ->
    (forall c k, last_comp (i_name i) = Some c -> segment_of c = Some k ->
       length (i_name i) = (length (pr_vprefix P) + 1)%nat -> c = segment_comp cv k) ->
    matches_data digest i d = true.
Proof. exact replies_satisfy. Qed.
Print Assumptions C25_answer_satisfies_partial.

(** An Interest that uses the other naming convention, a segment number that is not encoded
    minimally, or MustBeFresh when the producer runs with freshness zero: the producer
    answers with Data that does not satisfy the Interest. *)
Theorem C25_answer_satisfies_refuted :
  exists digest cv now o prefix input i d,
    let P := make_producer cv now o prefix input in
    In (RpData d) (producer_replies digest cv now P i) /\ i_mustBeFresh i = false /\ matches_data digest i d = false.
Proof.
  exists exdig, CvTyped, 7, (POpts 2 1000), exA, [1; 2; 3; 4; 5], (segment_interest CvMarker exAv 1 false).
  eexists. split; [left; vm_compute; reflexivity|vm_compute; auto].
Qed.
Print Assumptions C25_answer_satisfies_refuted.
Theorem C25_answer_fresh_refuted :
  exists digest cv now o prefix input i d,
    let P := make_producer cv now o prefix input in
    In (RpData d) (producer_replies digest cv now P i) /\ i_name i = pr_vprefix P ++ [segment_comp cv 1] /\ matches_data digest i d = false.
Proof.
  exists exdig, CvTyped, 7, (POpts 2 0), exA, [1; 2; 3; 4; 5], (segment_interest CvTyped exAv 1 true).
  eexists. split; [left; vm_compute; reflexivity|vm_compute; auto].
Qed.
Print Assumptions C25_answer_fresh_refuted.

Example C25_case :
  producer_replies exdig CvTyped 9 exP (segment_interest CvTyped exAv 1 true) =
    [RpData (Packet (exAv ++ [segment_comp CvTyped 1]) [3; 4] (Some (segment_comp CvTyped 2)) 1000)] /\
  producer_replies exdig CvTyped 9 exP (segment_interest CvTyped exAv 3 true) = [RpNack] /\
  producer_replies exdig CvTyped 9 exP (Interest exA true false) =
    [RpData (Packet (exAv ++ [segment_comp CvTyped 0]) [1; 2] (Some (segment_comp CvTyped 2)) 1000)] /\
  producer_replies exdig CvTyped 9 exP (discovery_interest exA) = [RpData exMeta] /\
  producer_replies exdig CvTyped 9 exP (Interest [Comp TGeneric [66]] true false) = [].
Proof. vm_compute. auto 7. Qed.

(** * C26 Segmentation is lossless *)
Theorem C26_segmentation :
  forall cv now0 o prefix input, (0 < po_size o)%nat ->
    let P := make_producer cv now0 o prefix input in
    exists chunks, segmentation (po_size o) input chunks /\ length (pr_store P) = length chunks /\
      forall k c, nth_error chunks k = Some c ->
        nth_error (pr_store P) k =
        Some (Packet (pr_vprefix P ++ [segment_comp cv (N.of_nat k)]) c
                     (Some (segment_comp cv (N.of_nat (length chunks - 1)))) (po_fresh o)).
Proof. exact store_described. Qed.
Print Assumptions C26_segmentation.

Example C26_case : map k_content (pr_store exP) = [[1; 2]; [3; 4]; [5]] /\
  map k_content (pr_store (make_producer CvTyped 7 (POpts 2 0) exA [])) = [[]].
Proof. vm_compute. auto. Qed.

(** * C27 The version announced is the version served *)
Theorem C27_announced_is_served :
  forall digest cv now0 (Hnow : now0 < 18446744073709551616) o (Hsize : (0 < po_size o)%nat) prefix input now,
    let P := make_producer cv now0 o prefix input in
    now < 18446744073709551616 -> encodable (pr_vprefix P) ->
    exists p, producer_replies digest cv now P (discovery_interest (pr_prefix P)) = [RpData p] /\
              matches_data digest (discovery_interest (pr_prefix P)) p = true /\ announces p (pr_vprefix P).
Proof. exact discovery_reply. Qed.
Print Assumptions C27_announced_is_served.

(** the versioned name is the prefix and a version; a version given by the user is kept *)
Theorem C27_version :
  forall cv now0 (Hnow : now0 < 18446744073709551616) o prefix input,
    let P := make_producer cv now0 o prefix input in
    (exists c, pr_vprefix P = pr_prefix P ++ [c] /\ is_version c = true) /\
    (ends_with_version prefix = true -> pr_vprefix P = prefix) /\
    (ends_with_version prefix = false -> pr_prefix P = prefix /\ pr_vprefix P = prefix ++ [version_comp cv now0]).
Proof. exact version_kept. Qed.
Print Assumptions C27_version.

Theorem C27_discovered_name :
  forall digest cv now0 (Hnow : now0 < 18446744073709551616) o prefix input dc des vname,
    let P := make_producer cv now0 o prefix input in
    encodable (pr_vprefix P) ->
    client_of digest cv P dc (d_run dc des) -> In (DoSuccess vname) (d_run dc des) -> vname = pr_vprefix P.
Proof. exact client_name. Qed.
Print Assumptions C27_discovered_name.

Example C27_case : encodable (pr_vprefix exP) /\ pr_prefix exP = exA /\
  pr_prefix (make_producer CvMarker 7 (POpts 2 0) exAv []) = exA /\
  announces exMeta (pr_vprefix exP).
Proof.
  split; [split; [repeat constructor|reflexivity]|]. split; [reflexivity|]. split; [reflexivity|].
  destruct (handleData_spec exMeta) as [(n & E & H)|[E _]]; vm_compute in E; [|discriminate].
  injection E as E. subst n. exact H.
Qed.

(** * C28 Segment and version components *)
Theorem C28_segment_round_trip : forall cv n, n < 18446744073709551616 -> segment_of (segment_comp cv n) = Some n.
Proof. exact segment_roundtrip. Qed.
Print Assumptions C28_segment_round_trip.
Theorem C28_version_round_trip : forall cv n, n < 18446744073709551616 -> version_of (version_comp cv n) = Some n.
Proof. exact version_roundtrip. Qed.
Print Assumptions C28_version_round_trip.
Theorem C28_segment_injective : forall c1 c2 n1 n2, n1 < 18446744073709551616 -> n2 < 18446744073709551616 ->
  segment_comp c1 n1 = segment_comp c2 n2 -> c1 = c2 /\ n1 = n2.
Proof. exact segment_inj. Qed.
Print Assumptions C28_segment_injective.
Theorem C28_version_injective : forall c1 c2 n1 n2, n1 < 18446744073709551616 -> n2 < 18446744073709551616 ->
  version_comp c1 n1 = version_comp c2 n2 -> c1 = c2 /\ n1 = n2.
Proof. exact version_inj. Qed.
Print Assumptions C28_version_injective.
(** no component is both *)
Theorem C28_kinds_disjoint : forall c n, segment_of c = Some n -> version_of c = None.
Proof. exact kinds_disjoint. Qed.
Print Assumptions C28_kinds_disjoint.

Example C28_case : segment_comp CvTyped 300 = Comp 50 [1; 44] /\ version_comp CvMarker 65536 = Comp 8 [253; 0; 1; 0; 0] /\
  segment_of (Comp 50 [1; 44]) = Some 300 /\ version_of (Comp 8 [253; 0; 1; 0; 0]) = Some 65536.
Proof. vm_compute. auto. Qed.
