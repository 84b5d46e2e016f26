(** Composition of ndnputchunks, version discovery and the pipelines. *)
From Verif Require Import Base BaseFacts TlvModel TlvProofs PipelineBase PipelineSpec FetcherModel PutchunksModel PutchunksSpec PutchunksProofs.
From Verif Require Import DiscoverModel DiscoverSpec DiscoverProofs CatchunksModel CatchunksSpec CatchunksProofs.
From Verif Require Import AdaptiveModel AdaptiveTheorems FixedModel FixedTheorems.
Local Open Scope N_scope.

Lemma split_length fuel size l : (0 < size)%nat -> (length (split fuel size l) <= S (length l))%nat.
Proof.
  intros Hs. revert l. induction fuel as [|fuel IH]; intros l; cbn; [lia|].
  destruct (Nat.leb_spec (length l) size) as [H|H]; cbn; [lia|].
  specialize (IH (skipn size l)). rewrite skipn_length in IH. lia.
Qed.

Lemma pieces_segmentation size input : (0 < size)%nat -> segmentation size input (pieces size input).
Proof.
  intros Hs. split; [apply split_concat|]. destruct (split_shape (length input) size input Hs (Nat.le_refl _)) as (a & z & H).
  exists a, z. exact H.
Qed.

(** both kinds of numbers *)
Lemma kinds_disjoint c n : segment_of c = Some n -> version_of c = None.
Proof.
  unfold segment_of, version_of, number_of. intros H.
  destruct (N.eqb_spec (c_type c) TSegment) as [E|E].
  - rewrite E. change (TSegment =? TVersion) with false. cbn [andb]. destruct (c_value c); reflexivity.
  - cbn [andb] in H. destruct (c_value c) as [|m v]; [discriminate|].
    destruct (N.eqb_spec (c_type c) TGeneric) as [E'|E']; [|discriminate]. rewrite E'. cbn [andb] in *.
    destruct (N.eqb_spec m MSegment) as [->|]; [|discriminate]. reflexivity.
Qed.
Lemma segment_roundtrip cv n : u64 n -> segment_of (segment_comp cv n) = Some n.
Proof. intros H. now apply number_roundtrip. Qed.
Lemma version_roundtrip cv n : u64 n -> version_of (version_comp cv n) = Some n.
Proof. intros H. now apply number_roundtrip. Qed.
Lemma segment_inj c1 c2 n1 n2 : u64 n1 -> u64 n2 -> segment_comp c1 n1 = segment_comp c2 n2 -> c1 = c2 /\ n1 = n2.
Proof. now apply number_comp_inj. Qed.
Lemma version_inj c1 c2 n1 n2 : u64 n1 -> u64 n2 -> version_comp c1 n1 = version_comp c2 n2 -> c1 = c2 /\ n1 = n2.
Proof. now apply number_comp_inj. Qed.
Lemma version_is_no_segment cv n : u64 n -> segment_of (version_comp cv n) = None.
Proof.
  intros H. destruct (segment_of (version_comp cv n)) eqn:E; [|reflexivity].
  apply kinds_disjoint in E. rewrite version_roundtrip in E by exact H. discriminate.
Qed.
Lemma segment_is_no_version cv n : u64 n -> version_of (segment_comp cv n) = None.
Proof. intros H. now apply kinds_disjoint with n, segment_roundtrip. Qed.

Section Composed.
Variable digest : packet -> component.
Variable cv : convention.
Variable now0 : N.
Hypothesis Hnow : u64 now0.
Variable o : popts.
Hypothesis Hsize : (0 < po_size o)%nat.
Variable prefix : name.
Variable input : list N.
Hypothesis Hinput : u64 (N.of_nat (length input) + 1).
Notation P := (make_producer cv now0 o prefix input).

Lemma count_ok : u64 (N.of_nat (length (pieces (po_size o) input))).
Proof.
  pose proof (split_length (length input) (po_size o) input Hsize). unfold u64 in *. unfold pieces. lia.
Qed.

Lemma client_name dc des vname :
  encodable (pr_vprefix P) ->
  client_of digest cv P dc (d_run dc des) -> In (DoSuccess vname) (d_run dc des) -> vname = pr_vprefix P.
Proof.
  intros Hok [Hc|(Hc & Hd & Hv & Hh)] Hs.
  - rewrite discovery_skip in Hs.
    + destruct Hs as [Hs|[]]. congruence.
    + right. rewrite Hc. destruct (vprefix_shape cv now0 Hnow o prefix input) as (c & H1 & H2). eauto.
  - exact (honest_discovery_name digest cv now0 Hnow o prefix input dc des vname Hc Hd Hv Hok Hh Hs).
Qed.

Lemma e2e_genuine dc des vname ccv mbf h :
  encodable (pr_vprefix P) ->
  client_of digest cv P dc (d_run dc des) -> In (DoSuccess vname) (d_run dc des) ->
  honest_network digest cv P ccv vname mbf h -> genuine_history (pieces (po_size o) input) h.
Proof.
  intros Hok Hc Hs Hh. rewrite (client_name dc des vname Hok Hc Hs) in Hh.
  exact (honest_genuine digest cv now0 Hnow o Hsize prefix input ccv mbf h count_ok Hh).
Qed.

Lemma e2e_adaptive {W R} (pol : policy W R) C es dc des vname ccv mbf :
  encodable (pr_vprefix P) ->
  client_of digest cv P dc (d_run dc des) -> In (DoSuccess vname) (d_run dc des) ->
  let h := a_history (a_run pol C es) in
  (forall h1 h2, h = h1 ++ h2 -> honest_network digest cv P ccv vname mbf h1 -> is_prefix (catchunks_stdout h1) input) /\
  (In ODone h -> honest_network digest cv P ccv vname mbf h -> catchunks_stdout h = input).
Proof.
  intros Hok Hc Hs h. pose proof (split_concat (length input) (po_size o) input) as HC'. split.
  - intros h1 h2 E Hh. rewrite <- HC'. exact (adaptive_stdout_prefix pol C es h1 h2 _ E (e2e_genuine dc des vname ccv mbf h1 Hok Hc Hs Hh)).
  - intros Hd Hh. rewrite <- HC'. exact (adaptive_stdout_done pol C es _ Hd (e2e_genuine dc des vname ccv mbf h Hok Hc Hs Hh)).
Qed.

Lemma e2e_fixed C es dc des vname ccv mbf : (0 < xc_size C)%nat ->
  encodable (pr_vprefix P) ->
  client_of digest cv P dc (d_run dc des) -> In (DoSuccess vname) (d_run dc des) ->
  let h := x_history (x_run C es) in
  (forall h1 h2, h = h1 ++ h2 -> honest_network digest cv P ccv vname mbf h1 -> is_prefix (catchunks_stdout h1) input) /\
  (In ODone h -> honest_network digest cv P ccv vname mbf h -> catchunks_stdout h = input).
Proof.
  intros HC Hok Hc Hs h. pose proof (split_concat (length input) (po_size o) input) as HC'. split.
  - intros h1 h2 E Hh. rewrite <- HC'. exact (fixed_stdout_prefix C es HC h1 h2 _ E (e2e_genuine dc des vname ccv mbf h1 Hok Hc Hs Hh)).
  - intros Hd Hh. rewrite <- HC'. exact (fixed_stdout_done C es HC _ Hd (e2e_genuine dc des vname ccv mbf h Hok Hc Hs Hh)).
Qed.
End Composed.

(** statements with the segmentation spelled out *)
Lemma store_described cv now0 o prefix input : (0 < po_size o)%nat ->
  let P := make_producer cv now0 o prefix input in
  exists chunks, segmentation (po_size o) input chunks /\ length (pr_store P) = length chunks /\
    forall k c, nth_error chunks k = Some c ->
      nth_error (pr_store P) k =
      Some (Packet (pr_vprefix P ++ [segment_comp cv (N.of_nat k)]) c
                   (Some (segment_comp cv (N.of_nat (length chunks - 1)))) (po_fresh o)).
Proof.
  intros Hs P. exists (pieces (po_size o) input). split; [now apply pieces_segmentation|].
  split; [unfold P; rewrite store_eq; apply make_segments_length|].
  intros k c Hk. unfold P. rewrite store_nth, Hk. reflexivity.
Qed.

Lemma replies_described digest cv now0 o prefix input : u64 now0 -> (0 < po_size o)%nat ->
  let P := make_producer cv now0 o prefix input in
  exists chunks, segmentation (po_size o) input chunks /\
    forall now cbp mbf k, u64 k ->
    producer_replies digest cv now P (Interest (pr_vprefix P ++ [segment_comp cv k]) cbp mbf) =
    [match nth_error chunks (N.to_nat k) with
     | Some c => RpData (Packet (pr_vprefix P ++ [segment_comp cv k]) c
                                (Some (segment_comp cv (N.of_nat (length chunks - 1)))) (po_fresh o))
     | None => RpNack
     end].
Proof.
  intros Hn Hs P. exists (pieces (po_size o) input). split; [now apply pieces_segmentation|].
  intros now cbp mbf k Hk. now apply replies_segment.
Qed.

Lemma replies_iff' digest cv now0 o prefix input now i :
  let P := make_producer cv now0 o prefix input in
  producer_replies digest cv now P i <> [] <->
  (exists rest, i_name i = pr_vprefix P ++ rest) \/ i_name i = pr_prefix P \/
  (exists rest, i_name i = pr_prefix P ++ [metadata_comp] ++ rest).
Proof.
  intros P. unfold P. rewrite replies_iff. unfold discovery_name.
  setoid_rewrite <- app_assoc. reflexivity.
Qed.

Lemma version_kept cv now0 : u64 now0 -> forall o prefix input,
  let P := make_producer cv now0 o prefix input in
  (exists c, pr_vprefix P = pr_prefix P ++ [c] /\ is_version c = true) /\
  (ends_with_version prefix = true -> pr_vprefix P = prefix) /\
  (ends_with_version prefix = false -> pr_prefix P = prefix /\ pr_vprefix P = prefix ++ [version_comp cv now0]).
Proof.
  intros Hn o prefix input P. split; [now apply vprefix_shape|].
  unfold P, make_producer. split; intros ->; auto.
Qed.
