From Verif Require Import Base BaseFacts TlvModel TlvProofs PutchunksModel PutchunksSpec.
From Verif Require Import PipelineBase PipelineSpec CatchunksSpec.

(** * Segmentation *)
Lemma split_concat fuel size l : concat (split fuel size l) = l.
Proof.
  revert l. induction fuel as [|fuel IH]; intros l; cbn; [apply app_nil_r|].
  destruct (length l <=? size)%nat; cbn; [apply app_nil_r|]. rewrite IH. apply firstn_skipn.
Qed.
Lemma split_nonempty fuel size l : split fuel size l <> [].
Proof. destruct fuel; cbn; [discriminate|]. destruct (length l <=? size)%nat; discriminate. Qed.
Lemma split_shape fuel size l : (0 < size)%nat -> (length l <= fuel)%nat ->
  exists a z, split fuel size l = a ++ [z] /\ Forall (fun c => length c = size) a /\ (length z <= size)%nat /\
              (a <> [] -> (0 < length z)%nat).
Proof.
  intros Hs. revert l. induction fuel as [|fuel IH]; intros l Hl; cbn.
  - exists [], l. split; [reflexivity|]. split; [constructor|]. split; [lia|congruence].
  - destruct (Nat.leb_spec (length l) size) as [H|H].
    + exists [], l. split; [reflexivity|]. split; [constructor|]. split; [exact H|congruence].
    + destruct (IH (skipn size l)) as (a & z & E & H1 & H2 & H3); [rewrite skipn_length; lia|].
      exists (firstn size l :: a), z. rewrite E. split; [reflexivity|].
      split; [constructor; [apply firstn_length_le; lia|exact H1]|]. split; [exact H2|]. intros _.
      destruct a as [|x a]; [|apply H3; discriminate].
      assert (E2 : concat (split fuel size (skipn size l)) = z) by (rewrite E; cbn; apply app_nil_r).
      rewrite split_concat in E2. rewrite <- E2, skipn_length. lia.
Qed.

Lemma make_segments_length cv v f la k l : length (make_segments cv v f la k l) = length l.
Proof. revert k. induction l as [|c l IH]; intros k; cbn; [reflexivity|]. now rewrite IH. Qed.
Lemma make_segments_nth cv v f la k l j :
  nth_error (make_segments cv v f la k l) j =
  match nth_error l j with Some c => Some (make_segment cv v f la (k + N.of_nat j) c) | None => None end.
Proof.
  revert k j. induction l as [|c l IH]; intros k [|j]; cbn; try reflexivity.
  - now rewrite N.add_0_r.
  - rewrite IH. destruct (nth_error l j); [|reflexivity]. do 2 f_equal. lia.
Qed.
Lemma make_segments_contents cv v f la k l : map k_content (make_segments cv v f la k l) = l.
Proof. revert k. induction l as [|c l IH]; intros k; cbn; [reflexivity|]. now rewrite IH. Qed.

(** * The producer's names *)
Lemma version_type c : is_version c = true -> c_type c = TVersion \/ c_type c = TGeneric.
Proof.
  unfold is_version, version_of, number_of.
  destruct (N.eqb_spec (c_type c) TVersion) as [E|E]; [now left|]. cbn [andb].
  destruct (c_value c) as [|m v]; [discriminate|].
  destruct (N.eqb_spec (c_type c) TGeneric) as [E'|E']; [now right|]. cbn [andb]. discriminate.
Qed.
Lemma version_not_metadata c : is_version c = true -> c <> metadata_comp.
Proof. intros H ->. apply version_type in H. destruct H; discriminate. Qed.
Lemma is_version_comp cv n : u64 n -> is_version (version_comp cv n) = true.
Proof. intros H. unfold is_version, version_of, version_comp. now rewrite number_roundtrip. Qed.

Section Producer.
Variable digest : packet -> component.
Variable cv : convention.
Variable now0 : N.
Hypothesis Hnow : u64 now0.
Variable o : popts.
Hypothesis Hsize : (0 < po_size o)%nat.
Variable prefix : name.
Variable input : list N.
Notation P := (make_producer cv now0 o prefix input).
Notation chunks := (pieces (po_size o) input).

Lemma vprefix_shape : exists c, pr_vprefix P = pr_prefix P ++ [c] /\ is_version c = true.
Proof.
  unfold make_producer. unfold ends_with_version. destruct (last_comp prefix) as [c|] eqn:E.
  - destruct (is_version c) eqn:Ev; cbn; [|eauto using is_version_comp].
    exists c. split; [now apply last_comp_some|exact Ev].
  - cbn. eauto using is_version_comp.
Qed.
Lemma store_eq : pr_store P = make_segments cv (pr_vprefix P) (po_fresh o) (N.of_nat (length chunks - 1)) 0 chunks.
Proof. unfold make_producer. destruct (ends_with_version prefix); reflexivity. Qed.
Lemma store_nth k : nth_error (pr_store P) k =
  match nth_error chunks k with
  | Some c => Some (make_segment cv (pr_vprefix P) (po_fresh o) (N.of_nat (length chunks - 1)) (N.of_nat k) c)
  | None => None
  end.
Proof. rewrite store_eq, make_segments_nth. destruct (nth_error chunks k); reflexivity. Qed.
Lemma chunks_nonempty : chunks <> [].
Proof. apply split_nonempty. Qed.

(** the three filters exclude each other *)
Lemma filters_disjoint n :
  (is_prefix_of (pr_vprefix P) n = true -> n <> pr_prefix P /\ is_prefix_of (discovery_name (pr_prefix P)) n = false) /\
  (is_prefix_of (discovery_name (pr_prefix P)) n = true -> n <> pr_prefix P /\ is_prefix_of (pr_vprefix P) n = false).
Proof.
  destruct vprefix_shape as (c & Hv & Hc). rewrite Hv. unfold discovery_name.
  assert (Hne : forall x, is_prefix_of (pr_prefix P ++ [x]) n = true -> n <> pr_prefix P).
  { intros x H E. apply is_prefix_of_spec in H. destruct H as (y & ->).
    apply (f_equal (@length _)) in E. rewrite !app_length in E. cbn in E. lia. }
  assert (Hdis : is_prefix_of (pr_prefix P ++ [c]) n = true -> is_prefix_of (pr_prefix P ++ [metadata_comp]) n = true -> False).
  { intros H1 H2. apply is_prefix_of_spec in H1, H2. destruct H1 as (y & ->), H2 as (z & E).
    rewrite <- !app_assoc in E. apply app_inv_head in E. injection E as -> _.
    now apply version_not_metadata in Hc. }
  split; intros H; (split; [eapply Hne; eauto|]); apply not_true_iff_false; intros H'; eauto.
Qed.

Lemma replies_at_most_one now i : (length (producer_replies digest cv now P i) <= 1)%nat.
Proof.
  unfold producer_replies. destruct (filters_disjoint (i_name i)) as [H1 H2].
  destruct (is_prefix_of (pr_vprefix P) (i_name i)) eqn:E1.
  - destruct (H1 eq_refl) as [Hn ->]. destruct (name_eqb (i_name i) (pr_prefix P)) eqn:E2; [|cbn; lia].
    apply name_eqb_spec in E2. contradiction.
  - destruct (is_prefix_of (discovery_name (pr_prefix P)) (i_name i)) eqn:E3.
    + destruct (H2 eq_refl) as [Hn _]. destruct (name_eqb (i_name i) (pr_prefix P)) eqn:E2; [|cbn; lia].
      apply name_eqb_spec in E2. contradiction.
    + destruct (name_eqb (i_name i) (pr_prefix P)); cbn; lia.
Qed.

Lemma replies_iff now i :
  producer_replies digest cv now P i <> [] <->
  (exists rest, i_name i = pr_vprefix P ++ rest) \/ i_name i = pr_prefix P \/
  (exists rest, i_name i = discovery_name (pr_prefix P) ++ rest).
Proof.
  unfold producer_replies. rewrite <- !is_prefix_of_spec, <- name_eqb_spec.
  destruct (is_prefix_of (pr_vprefix P) (i_name i)), (name_eqb (i_name i) (pr_prefix P)),
           (is_prefix_of (discovery_name (pr_prefix P)) (i_name i)); cbn; intuition congruence.
Qed.

(** a request for a segment *)
Lemma replies_segment now mbf cbp k : u64 k ->
  producer_replies digest cv now P (Interest (pr_vprefix P ++ [segment_comp cv k]) cbp mbf) =
  [match nth_error chunks (N.to_nat k) with
   | Some c => RpData (Packet (pr_vprefix P ++ [segment_comp cv k]) c
                              (Some (segment_comp cv (N.of_nat (length chunks - 1)))) (po_fresh o))
   | None => RpNack
   end].
Proof.
  intros Hk. unfold producer_replies. cbn [i_name].
  assert (E : is_prefix_of (pr_vprefix P) (pr_vprefix P ++ [segment_comp cv k]) = true)
    by (apply is_prefix_of_spec; eauto).
  destruct (filters_disjoint (pr_vprefix P ++ [segment_comp cv k])) as [H1 _]. destruct (H1 E) as [Hn ->].
  rewrite E. destruct (name_eqb _ (pr_prefix P)) eqn:E2; [apply name_eqb_spec in E2; contradiction|].
  cbn [app]. f_equal. unfold processSegmentInterest. cbn [i_name]. rewrite last_comp_app, app_length. cbn [length].
  rewrite Nat.eqb_refl. unfold segment_of, segment_comp. rewrite number_roundtrip by (auto; discriminate).
  rewrite store_nth. destruct (nth_error chunks (N.to_nat k)); [|reflexivity].
  rewrite N2Nat.id. reflexivity.
Qed.

(** Interests without segment number *)
Lemma replies_first now i :
  i_name i = pr_prefix P \/ i_name i = pr_vprefix P ->
  i_canBePrefix i = true -> (i_mustBeFresh i = true -> (0 < po_fresh o)%Z) ->
  exists d, producer_replies digest cv now P i = [RpData d] /\ nth_error (pr_store P) 0 = Some d.
Proof.
  intros Hn Hcbp Hmbf. destruct vprefix_shape as (cc & Hv & Hc).
  destruct chunks as [|c0 cs] eqn:Ec; [now apply chunks_nonempty in Ec|].
  assert (Hst : exists st, pr_store P = make_segment cv (pr_vprefix P) (po_fresh o) (N.of_nat (length chunks - 1)) 0 c0 :: st).
  { rewrite store_eq, Ec. cbn. eauto. }
  destruct Hst as (st & Hst). set (d := make_segment _ _ _ _ _ _) in Hst.
  exists d. split; [|rewrite Hst; reflexivity].
  assert (Hlen : (length (i_name i) <= length (pr_vprefix P))%nat).
  { destruct Hn as [->| ->]; [|lia]. rewrite Hv, app_length. cbn. lia. }
  assert (Hproc : processSegmentInterest digest P i = RpData d).
  { unfold processSegmentInterest.
    assert (E : Nat.eqb (length (i_name i)) (length (pr_vprefix P) + 1) = false) by (apply Nat.eqb_neq; lia).
    rewrite E. assert (match last_comp (i_name i) with Some _ | None => @None N end = None) as -> by (destruct (last_comp (i_name i)); reflexivity).
    rewrite Hst. unfold matches_data. cbn [d make_segment k_fresh k_name].
    destruct (i_mustBeFresh i && (po_fresh o <=? 0)%Z) eqn:Ef.
    { apply andb_prop in Ef. destruct Ef as [Ef1 Ef2]. specialize (Hmbf Ef1). lia. }
    rewrite app_length. cbn [length].
    assert (E2 : Nat.eqb (length (i_name i)) (length (pr_vprefix P) + 1 + 1) = false) by (apply Nat.eqb_neq; lia).
    rewrite E2, Hcbp.
    assert (E3 : is_prefix_of (i_name i) (pr_vprefix P ++ [segment_comp cv 0]) = true).
    { apply is_prefix_of_spec. destruct Hn as [->| ->]; [|eauto]. rewrite Hv, <- app_assoc. eauto. }
    now rewrite E3. }
  pose proof (replies_at_most_one now i) as Hone.
  assert (Hin : In (RpData d) (producer_replies digest cv now P i)).
  { unfold producer_replies. rewrite Hproc. destruct Hn as [Hn|Hn]; rewrite Hn.
    - apply in_or_app. right. apply in_or_app. left.
      assert (E : name_eqb (pr_prefix P) (pr_prefix P) = true) by now apply name_eqb_spec. rewrite E. now left.
    - apply in_or_app. left.
      assert (E : is_prefix_of (pr_vprefix P) (pr_vprefix P) = true) by (apply is_prefix_of_spec; exists []; now rewrite app_nil_r).
      rewrite E. now left. }
  destruct (producer_replies digest cv now P i) as [|x [|y l]]; cbn in *; [contradiction| |lia].
  destruct Hin as [->|[]]. reflexivity.
Qed.

(** * Replies satisfy the Interest *)
Definition canonical_segment (i : interest) : Prop :=
  forall c k, last_comp (i_name i) = Some c -> segment_of c = Some k ->
    length (i_name i) = (length (pr_vprefix P) + 1)%nat -> c = segment_comp cv k.

Lemma replies_satisfy now i d :
  In (RpData d) (producer_replies digest cv now P i) ->
  (i_mustBeFresh i = true -> (0 < po_fresh o)%Z) -> canonical_segment i ->
  matches_data digest i d = true.
Proof.
  intros Hin Hf Hcan.
  assert (Hseg : is_prefix_of (pr_vprefix P) (i_name i) = true \/ i_name i = pr_prefix P ->
                 processSegmentInterest digest P i = RpData d -> matches_data digest i d = true).
  { intros Hpre. unfold processSegmentInterest.
    assert (Hmiss : match pr_store P with d0 :: _ => if matches_data digest i d0 then RpData d0 else RpNack | [] => RpNack end = RpData d ->
                    matches_data digest i d = true).
    { destruct (pr_store P); [discriminate|]. destruct (matches_data digest i p) eqn:E; [|discriminate]. intros [= ->]. exact E. }
    destruct (last_comp (i_name i)) as [c|] eqn:El; [|exact Hmiss].
    destruct (Nat.eqb_spec (length (i_name i)) (length (pr_vprefix P) + 1)) as [E|E]; [|exact Hmiss].
    destruct (segment_of c) as [k|] eqn:Es; [|exact Hmiss].
    rewrite store_nth. destruct (nth_error chunks (N.to_nat k)) as [x|]; [|discriminate].
    rewrite N2Nat.id. intros [= <-].
    specialize (Hcan c k El Es E). subst c.
    assert (Hname : i_name i = pr_vprefix P ++ [segment_comp cv k]).
    { destruct Hpre as [Hpre|Hpre].
      - apply is_prefix_of_spec in Hpre. destruct Hpre as (rest & Hr). rewrite Hr in El, E.
        rewrite app_length in E. destruct rest as [|y [|z rest]]; cbn in E; try lia.
        rewrite last_comp_app in El. injection El as ->. exact Hr.
      - rewrite Hpre in E. destruct vprefix_shape as (cc & Hv & _). rewrite Hv, app_length in E. cbn in E. lia. }
    unfold matches_data. cbn [make_segment k_name k_fresh]. rewrite Hname.
    destruct (i_mustBeFresh i && (po_fresh o <=? 0)%Z) eqn:Ef.
    { apply andb_prop in Ef. destruct Ef as [Ef1 Ef2]. specialize (Hf Ef1). lia. }
    rewrite app_length. cbn [length].
    assert (E2 : Nat.eqb (length (pr_vprefix P) + 1) (length (pr_vprefix P) + 1 + 1) = false) by (apply Nat.eqb_neq; lia).
    rewrite E2. destruct (i_canBePrefix i).
    - apply is_prefix_of_spec. exists []. now rewrite app_nil_r.
    - now apply name_eqb_spec. }
  unfold producer_replies in Hin. apply in_app_or in Hin. destruct Hin as [Hin|Hin].
  { destruct (is_prefix_of (pr_vprefix P) (i_name i)); [|contradiction]. destruct Hin as [Hin|[]]. auto. }
  apply in_app_or in Hin. destruct Hin as [Hin|Hin].
  { destruct (name_eqb (i_name i) (pr_prefix P)) eqn:E; [|contradiction]. apply name_eqb_spec in E.
    destruct Hin as [Hin|[]]. auto. }
  destruct (is_prefix_of (discovery_name (pr_prefix P)) (i_name i)); [|contradiction].
  destruct Hin as [Hin|[]]. unfold processDiscoveryInterest in Hin.
  destruct (i_canBePrefix i) eqn:Ec; cbn in Hin; [|discriminate]. injection Hin as <-.
  unfold matches_data, metadata_packet. cbn [k_name k_fresh]. change (10 <=? 0)%Z with false. rewrite andb_false_r, app_length.
  cbn [length].
  assert (E2 : Nat.eqb (length (i_name i)) (length (i_name i) + 2 + 1) = false) by (apply Nat.eqb_neq; lia).
  rewrite E2, Ec. apply is_prefix_of_spec. eauto.
Qed.

(** * What is published *)
Lemma published_cases p : published digest cv P p ->
  (exists k c, nth_error chunks k = Some c /\
               p = make_segment cv (pr_vprefix P) (po_fresh o) (N.of_nat (length chunks - 1)) (N.of_nat k) c) \/
  (exists now rest, p = metadata_packet cv now (pr_vprefix P) (discovery_name (pr_prefix P) ++ rest)).
Proof.
  intros (now & i & Hin).
  assert (Hst : forall d, In d (pr_store P) -> exists k c, nth_error chunks k = Some c /\
            d = make_segment cv (pr_vprefix P) (po_fresh o) (N.of_nat (length chunks - 1)) (N.of_nat k) c).
  { intros d Hd. apply In_nth_error in Hd. destruct Hd as (k & Hk). rewrite store_nth in Hk.
    destruct (nth_error chunks k) as [c|] eqn:E; [|discriminate]. injection Hk as <-. eauto. }
  assert (Hseg : processSegmentInterest digest P i = RpData p -> In p (pr_store P)).
  { unfold processSegmentInterest.
    destruct (match last_comp (i_name i) with Some c => _ | None => None end) as [k|].
    - destruct (nth_error (pr_store P) (N.to_nat k)) eqn:E; [|discriminate]. intros [= ->]. eapply nth_error_In; eauto.
    - destruct (pr_store P); [discriminate|]. destruct (matches_data digest i p0); [|discriminate].
      intros [= ->]. now left. }
  unfold producer_replies in Hin. apply in_app_or in Hin. destruct Hin as [Hin|Hin].
  { destruct (is_prefix_of (pr_vprefix P) (i_name i)); [|contradiction]. destruct Hin as [Hin|[]]. auto. }
  apply in_app_or in Hin. destruct Hin as [Hin|Hin].
  { destruct (name_eqb (i_name i) (pr_prefix P)); [|contradiction]. destruct Hin as [Hin|[]]. auto. }
  destruct (is_prefix_of (discovery_name (pr_prefix P)) (i_name i)) eqn:E; [|contradiction].
  destruct Hin as [Hin|[]]. unfold processDiscoveryInterest in Hin.
  destruct (i_canBePrefix i); cbn in Hin; [|discriminate]. injection Hin as <-.
  apply is_prefix_of_spec in E. destruct E as (rest & ->). right. eauto.
Qed.

Lemma number_comp_inj typ marker c1 c2 n1 n2 : typ <> TGeneric -> u64 n1 -> u64 n2 ->
  number_comp typ marker c1 n1 = number_comp typ marker c2 n2 -> c1 = c2 /\ n1 = n2.
Proof.
  intros Ht H1 H2 E.
  assert (En : n1 = n2).
  { pose proof (number_roundtrip typ marker c1 n1 H1 Ht) as R1. rewrite E, number_roundtrip in R1 by assumption. congruence. }
  split; [|exact En]. destruct c1, c2; try reflexivity; apply (f_equal c_type) in E; cbn in E; congruence.
Qed.

(** Data that satisfies the client's Interest for segment [seg] is the segment itself. *)
Lemma honest_genuine ccv mbf h :
  u64 (N.of_nat (length chunks)) ->
  honest_network digest cv P ccv (pr_vprefix P) mbf h -> genuine_history chunks h.
Proof.
  intros Hn Hh seg d Hd. destruct (Hh seg d Hd) as (Hseg & p & Hp & Hsee & Hm).
  unfold matches_data, segment_interest in Hm. cbn [i_name i_canBePrefix i_mustBeFresh] in Hm.
  destruct (mbf && (k_fresh p <=? 0)%Z); [discriminate|].
  rewrite app_length in Hm. cbn [length] in Hm.
  destruct (published_cases p Hp) as [(k & c & Hk & ->)|(nw & rest & ->)].
  - cbn [make_segment k_name] in Hm. rewrite app_length in Hm. cbn [length] in Hm.
    assert (E : Nat.eqb (length (pr_vprefix P) + 1) (length (pr_vprefix P) + 1 + 1) = false) by (apply Nat.eqb_neq; lia).
    rewrite E in Hm. apply name_eqb_spec, app_inv_head in Hm. injection Hm as Hm.
    assert (Hklt : (k < length chunks)%nat) by (apply nth_error_Some; congruence).
    apply number_comp_inj in Hm; [|discriminate|exact Hseg|unfold u64 in *; lia]. destruct Hm as [_ ->].
    destruct Hsee as (S1 & S2 & S3). cbn [make_segment k_content k_fbi] in S1, S3.
    unfold genuine. rewrite Nat2N.id, S1. split; [exact Hk|]. split; [exact S2|]. right. rewrite S3.
    unfold segment_of, segment_comp. rewrite number_roundtrip by (try discriminate; unfold u64 in *; lia). reflexivity.
  - exfalso. cbn [metadata_packet k_name] in Hm. destruct vprefix_shape as (vc & Hv & Hvc).
    assert (Hne : forall x y, pr_vprefix P ++ x <> (discovery_name (pr_prefix P) ++ rest) ++ y).
    { intros x y E. rewrite Hv in E. unfold discovery_name in E. rewrite <- !app_assoc in E.
      apply app_inv_head in E. cbn in E. injection E as E _. now apply version_not_metadata in Hvc. }
    destruct (Nat.eqb _ _).
    + destruct (last_comp _); [|discriminate]. apply andb_prop in Hm. destruct Hm as [_ Hm].
      apply name_eqb_spec in Hm. rewrite <- app_assoc in Hm. now apply Hne in Hm.
    + apply name_eqb_spec in Hm. now apply Hne in Hm.
Qed.
End Producer.
