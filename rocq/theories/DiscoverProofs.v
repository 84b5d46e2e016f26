From Verif Require Import Base BaseFacts TlvModel TlvProofs FetcherModel FixedInv PutchunksModel PutchunksSpec PutchunksProofs.
From Verif Require Import DiscoverModel DiscoverSpec.
Local Open Scope Z_scope.

Lemma ends_with_version_spec n : ends_with_version n = true <-> exists pre c, n = pre ++ [c] /\ is_version c = true.
Proof.
  unfold ends_with_version. split.
  - destruct (last_comp n) as [c|] eqn:E; [|discriminate]. intros H. exists (drop_last n), c.
    split; [now apply last_comp_some|exact H].
  - intros (pre & c & -> & H). now rewrite last_comp_app.
Qed.

Lemma valid_metadata_name_spec n : valid_metadata_name n = true <->
  exists pre v s, n = pre ++ [metadata_comp; v; s] /\ is_version v = true /\ is_segment s = true.
Proof.
  unfold valid_metadata_name. split.
  - destruct (rev n) as [|s [|v [|m l]]] eqn:E; try discriminate. intros H.
    apply andb_prop in H. destruct H as [H H3]. apply andb_prop in H. destruct H as [H1 H2].
    apply comp_eqb_spec in H1. subst m. exists (rev l), v, s. split; [|auto].
    rewrite <- (rev_involutive n), E. cbn. now rewrite <- !app_assoc.
  - intros (pre & v & s & -> & H1 & H2). rewrite rev_app_distr. cbn [rev app].
    assert (E : comp_eqb metadata_comp metadata_comp = true) by now apply comp_eqb_spec. now rewrite E, H1, H2.
Qed.

Lemma handleData_spec p :
  (exists n, d_handleData p = DoSuccess n /\ announces p n) \/
  (d_handleData p = DoFailure /\ forall n, ~ announces p n).
Proof.
  unfold d_handleData, metadata_of. destruct (valid_metadata_name (k_name p)) eqn:E1.
  - apply valid_metadata_name_spec in E1. destruct (decode_name (k_content p)) as [n|] eqn:E2.
    + destruct (ends_with_version n) eqn:E3.
      * left. exists n. split; [reflexivity|]. split; [exact E1|]. split; [exact E2|]. now apply ends_with_version_spec.
      * right. split; [reflexivity|]. intros n' (_ & H & H'). rewrite E2 in H. injection H as <-.
        apply ends_with_version_spec in H'. congruence.
    + right. split; [reflexivity|]. intros n' (_ & H & _). congruence.
  - right. split; [reflexivity|]. intros n' (H & _). apply valid_metadata_name_spec in H. congruence.
Qed.

Section Run.
Variable c : dconfig.
Notation r := (dc_retries c).

Definition quiet (h : list dobs) : Prop := Forall (fun o => is_outcome o = false) h.

Definition DI (st : fetcher * list dobs) : Prop :=
  let '(f, h) := st in
  (exists i h', h = DoInterest i :: h') /\
  ((f_phase f <> PhNone /\ f_isRunning f = true /\ quiet h /\
    f_nNacks f = (if Z.eqb r (-1) then 0 else count is_dnack h) /\
    f_nTimeouts f = (if Z.eqb r (-1) then 0 else count is_dtimeout h)) \/
   (f_phase f = PhNone /\ exists h0 o, h = h0 ++ [o] /\ quiet h0 /\
      match o with
      | DoSuccess n => exists p, In (DoGotData p) h0 /\ announces p n
      | DoFailure => failure_allowed r h0
      | _ => False
      end)).

Lemma quiet_app a b : quiet (a ++ b) <-> quiet a /\ quiet b.
Proof. unfold quiet. apply Forall_app. Qed.

Lemma di_step st e : DI st -> DI (d_step c st e).
Proof.
  destruct st as [f h]. intros [(i & h' & Hh) [(Hp & Hr & Hq & Hn & Ht)|(Hp & Hend)]].
  2:{ unfold d_step. assert (E : f_step (d_fconfig c) f (fetch_event e) = (f, [])).
      { unfold f_step. destruct e; cbn; now rewrite Hp. }
      cbn [fst snd]. rewrite E. cbn. rewrite app_nil_r. split; [eauto|]. right. auto. }
  assert (Hsh : forall x, exists i h'', h ++ x = DoInterest i :: h'') by (intros x; rewrite Hh; cbn; eauto).
  unfold d_step. cbn [fst snd].
  destruct (f_phase f) eqn:Ep; [congruence| |].
  - destruct e as [p|rr| |]; cbn [fetch_event].
    + destruct (f_data_case (d_fconfig c) f Ep Hr) as (f' & -> & F1 & F2 & F3).
      cbn [flat_map d_react app]. split; [apply Hsh|]. right. split; [exact F3|].
      exists (h ++ [DoGotData p]), (d_handleData p). rewrite <- app_assoc. split; [reflexivity|].
      split; [apply quiet_app; split; [exact Hq|repeat constructor]|].
      destruct (handleData_spec p) as [(n & -> & Ha)|[-> Ha]].
      * exists p. split; [apply in_or_app; right; now left|exact Ha].
      * left. exists p. split; [apply in_or_app; right; now left|exact Ha].
    + destruct (f_nack_cases (d_fconfig c) f rr Ep Hr) as (f' & E1 & E2 & Hcase).
      cbn [d_fconfig fc_maxNack] in E2, Hcase.
      assert (Hn' : f_nNacks f' = (if Z.eqb r (-1) then 0 else count is_dnack (h ++ [DoGotNack rr]))).
      { rewrite E2, count_app, count_cons, count_nil, Hn. cbn. destruct (r =? -1); lia. }
      assert (Ht' : f_nTimeouts f' = (if Z.eqb r (-1) then 0 else count is_dtimeout (h ++ [DoGotNack rr]))).
      { rewrite E1, count_app, count_cons, count_nil, Ht. cbn. destruct (r =? -1); lia. }
      assert (Hq' : quiet (h ++ [DoGotNack rr])) by (apply quiet_app; split; [exact Hq|repeat constructor]).
      destruct Hcase as [(-> & F1 & F2)|[(ms & -> & F1 & F2)|(k & -> & F1 & F2 & F3 & F4)]];
        cbn [flat_map d_react app]; (split; [apply Hsh|]).
      * left. rewrite F2. split; [discriminate|]. split; [exact F1|].
        change [DoGotNack rr; DoInterest (discovery_interest (dc_prefix c))] with ([DoGotNack rr] ++ [DoInterest (discovery_interest (dc_prefix c))]).
        rewrite app_assoc. split; [apply quiet_app; split; [exact Hq'|repeat constructor]|].
        rewrite Hn', Ht', !count_app. unfold count. cbn. destruct (r =? -1); lia.
      * left. rewrite F2. split; [discriminate|]. split; [exact F1|].
        change [DoGotNack rr; DoBackoff ms] with ([DoGotNack rr] ++ [DoBackoff ms]).
        rewrite app_assoc. split; [apply quiet_app; split; [exact Hq'|repeat constructor]|].
        rewrite Hn', Ht', !count_app. unfold count. cbn. destruct (r =? -1); lia.
      * right. split; [exact F3|]. exists (h ++ [DoGotNack rr]), DoFailure. rewrite <- app_assoc. split; [reflexivity|].
        split; [exact Hq'|]. destruct F4 as [[G1 G2]|[G1 G2]].
        -- right. left. exists rr. split; [apply in_or_app; right; now left|auto].
        -- right. right. split; [exact G1|]. left. rewrite <- E2, Hn' in G2. destruct (Z.eqb_spec r (-1)); [contradiction|exact G2].
    + destruct (f_timeout_cases (d_fconfig c) f Ep Hr) as (f' & E1 & E2 & Hcase).
      cbn [d_fconfig fc_maxTimeout] in E2, Hcase.
      assert (Hn' : f_nNacks f' = (if Z.eqb r (-1) then 0 else count is_dnack (h ++ [DoGotTimeout]))).
      { rewrite E1, count_app, count_cons, count_nil, Hn. cbn. destruct (r =? -1); lia. }
      assert (Ht' : f_nTimeouts f' = (if Z.eqb r (-1) then 0 else count is_dtimeout (h ++ [DoGotTimeout]))).
      { rewrite E2, count_app, count_cons, count_nil, Ht. cbn. destruct (r =? -1); lia. }
      assert (Hq' : quiet (h ++ [DoGotTimeout])) by (apply quiet_app; split; [exact Hq|repeat constructor]).
      destruct Hcase as [(-> & F1 & F2)|(k & -> & F1 & F2 & F3 & F4 & F5)];
        cbn [flat_map d_react app]; (split; [apply Hsh|]).
      * left. rewrite F2. split; [discriminate|]. split; [exact F1|].
        change [DoGotTimeout; DoInterest (discovery_interest (dc_prefix c))] with ([DoGotTimeout] ++ [DoInterest (discovery_interest (dc_prefix c))]).
        rewrite app_assoc. split; [apply quiet_app; split; [exact Hq'|repeat constructor]|].
        rewrite Hn', Ht', !count_app. unfold count. cbn. destruct (r =? -1); lia.
      * right. split; [exact F3|]. exists (h ++ [DoGotTimeout]), DoFailure. rewrite <- app_assoc. split; [reflexivity|].
        split; [exact Hq'|]. right. right. split; [exact F4|]. right. rewrite <- E2, Ht' in F5.
        destruct (Z.eqb_spec r (-1)); [contradiction|exact F5].
    + assert (E : f_step (d_fconfig c) f FeTimer = (f, [])) by (unfold f_step; now rewrite Ep).
      rewrite E. cbn. rewrite app_nil_r. split; [eauto|]. left. rewrite Ep. auto.
  - destruct e as [p|rr| |]; cbn [fetch_event].
    1,2,3: unfold f_step; rewrite Ep; cbn; rewrite app_nil_r; split; [eauto|]; left; rewrite Ep; auto.
    destruct (f_timer_case (d_fconfig c) f Ep Hr) as (f' & -> & F1 & F2 & F3 & F4).
    cbn [flat_map d_react app]. split; [apply Hsh|]. left. rewrite F2, F3, F4. split; [discriminate|]. split; [exact F1|].
    split; [apply quiet_app; split; [exact Hq|repeat constructor]|].
    rewrite Hn, Ht, !count_app. unfold count. cbn. destruct (r =? -1); lia.
Qed.

Lemma di_run es : DI (fold_left (d_step c) es (fst f_start, [DoInterest (discovery_interest (dc_prefix c))])).
Proof.
  apply fold_left_inv; [intros; now apply di_step|].
  split; [eauto|]. left. cbn. split; [discriminate|]. split; [reflexivity|]. split; [repeat constructor|].
  unfold count. cbn. destruct (r =? -1); auto.
Qed.

Lemma discovery_skip es :
  dc_disable c = true \/ (exists pre v, dc_prefix c = pre ++ [v] /\ is_version v = true) ->
  d_run c es = [DoSuccess (dc_prefix c)].
Proof.
  intros H. unfold d_run. assert (E : d_skip c = true); [|now rewrite E].
  unfold d_skip. destruct H as [->|H]; [reflexivity|]. apply ends_with_version_spec in H. rewrite H. apply orb_true_r.
Qed.

(** one outcome, and nothing happens afterwards *)
Lemma discovery_outcome_last es h1 o h2 :
  d_run c es = h1 ++ o :: h2 -> is_outcome o = true -> h2 = [] /\ quiet h1.
Proof.
  unfold d_run. destruct (d_skip c).
  { intros E Ho. destruct h1 as [|x h1]; cbn in E.
    - injection E as <- <-. split; [reflexivity|constructor].
    - injection E as _ E. destruct h1; discriminate. }
  pose proof (di_run es) as HD. destruct (fold_left _ _ _) as [f h]. cbn [snd].
  destruct HD as [_ [(_ & _ & Hq & _)|(_ & h0 & x & E0 & Hq & _)]]; intros E Ho.
  - exfalso. rewrite E in Hq. apply quiet_app in Hq. destruct Hq as [_ Hq]. inversion_clear Hq. congruence.
  - rewrite E in E0.
    destruct (exists_last (l := o :: h2)) as (l & y & El); [discriminate|].
    destruct l as [|z l].
    + injection El as -> ->. apply app_inj_tail in E0. destruct E0 as [-> ->]. auto.
    + injection El as -> ->. rewrite app_comm_cons, app_assoc in E0. apply app_inj_tail in E0. destruct E0 as [E0 _].
      exfalso. rewrite <- E0 in Hq. apply quiet_app in Hq. destruct Hq as [_ Hq]. inversion_clear Hq. congruence.
Qed.

Lemma discovery_success es n :
  dc_disable c = false -> (forall pre v, dc_prefix c = pre ++ [v] -> is_version v = false) ->
  In (DoSuccess n) (d_run c es) -> exists p, In (DoGotData p) (d_run c es) /\ announces p n.
Proof.
  intros Hd Hv. unfold d_run.
  assert (E : d_skip c = false).
  { unfold d_skip. rewrite Hd. cbn. apply not_true_iff_false. intros H. apply ends_with_version_spec in H.
    destruct H as (pre & v & H1 & H2). specialize (Hv _ _ H1). congruence. }
  rewrite E. pose proof (di_run es) as HD. destruct (fold_left _ _ _) as [f h]. cbn [snd].
  destruct HD as [_ [(_ & _ & Hq & _)|(_ & h0 & x & -> & Hq & Hx)]]; intros Hin.
  - exfalso. unfold quiet in Hq. rewrite Forall_forall in Hq. specialize (Hq _ Hin). discriminate.
  - apply in_app_or in Hin. destruct Hin as [Hin|[->|[]]].
    + exfalso. unfold quiet in Hq. rewrite Forall_forall in Hq. specialize (Hq _ Hin). discriminate.
    + destruct Hx as (p & H1 & H2). exists p. split; [apply in_or_app; now left|exact H2].
Qed.

Lemma discovery_failure es h1 h2 :
  d_run c es = h1 ++ DoFailure :: h2 -> failure_allowed r h1.
Proof.
  intros E0. destruct (discovery_outcome_last es h1 DoFailure h2 E0 eq_refl) as [-> _].
  revert E0. unfold d_run. destruct (d_skip c).
  { intros E. destruct h1 as [|x [|y h1]]; discriminate. }
  pose proof (di_run es) as HD. destruct (fold_left _ _ _) as [f h]. cbn [snd].
  destruct HD as [_ [(_ & _ & Hq & _)|(_ & h0 & x & -> & Hq & Hx)]]; intros E.
  - exfalso. subst h. apply quiet_app in Hq. destruct Hq as [_ Hq]. inversion_clear Hq. discriminate.
  - apply app_inj_tail in E. destruct E as [-> ->]. exact Hx.
Qed.

(** a valid answer while waiting is accepted *)
Lemma discovery_waiting es :
  quiet (d_run c es) ->
  forall p n, announces p n ->
    (exists e, d_run c (es ++ [e; DeData p]) = d_run c (es ++ [e]) ++ [DoGotData p; DoSuccess n]) \/
    d_run c (es ++ [DeData p]) = d_run c es ++ [DoGotData p; DoSuccess n].
Proof.
  unfold d_run. destruct (d_skip c).
  { intros Hq. inversion_clear Hq. discriminate. }
  pose proof (di_run es) as HD. destruct (fold_left (d_step c) es _) as [f h] eqn:Ef. cbn [snd].
  intros Hq p n Ha. destruct HD as [_ [(Hp & Hr & _)|(_ & h0 & x & -> & Hq0 & Hx)]].
  2:{ exfalso. apply quiet_app in Hq. destruct Hq as [_ Hq]. inversion_clear Hq. destruct x; try contradiction; discriminate. }
  assert (Hh : d_handleData p = DoSuccess n).
  { destruct (handleData_spec p) as [(n' & E & Ha')|[_ Hno]]; [|now apply Hno in Ha].
    destruct Ha as (_ & A & _), Ha' as (_ & A' & _). congruence. }
  assert (Hdata : forall f' h', f_phase f' = PhInterest -> f_isRunning f' = true ->
            snd (d_step c (f', h') (DeData p)) = h' ++ [DoGotData p; DoSuccess n]).
  { intros f' h' H1 H2. unfold d_step. cbn [fst snd fetch_event].
    destruct (f_data_case (d_fconfig c) f' H1 H2) as (f2 & -> & _). cbn. now rewrite Hh. }
  destruct (f_phase f) eqn:Ep; [congruence| |].
  - right. rewrite fold_left_app, Ef. cbn [fold_left]. now apply Hdata.
  - left. exists DeTimer. rewrite !fold_left_app, Ef. cbn [fold_left].
    assert (E : exists f2 h2, d_step c (f, h) DeTimer = (f2, h2) /\ f_phase f2 = PhInterest /\ f_isRunning f2 = true).
    { unfold d_step. cbn [fst snd fetch_event]. destruct (f_timer_case (d_fconfig c) f Ep Hr) as (f2 & -> & F1 & F2 & _). eauto. }
    destruct E as (f2 & h2 & -> & H1 & H2). cbn [snd]. now apply Hdata.
Qed.
End Run.

(** * With our producer *)
Section Composed.
Variable digest : packet -> component.
Variable cv : convention.
Variable now0 : N.
Hypothesis Hnow : u64 now0.
Variable o : popts.
Hypothesis Hsize : (0 < po_size o)%nat.
Variable prefix : name.
Variable input : list N.
Notation P := (make_producer cv now0 o prefix input).

(** the metadata packet that answers the client's discovery Interest *)
Lemma discovery_reply now : u64 now -> name_ok (pr_vprefix P) ->
  exists p, producer_replies digest cv now P (discovery_interest (pr_prefix P)) = [RpData p] /\
            matches_data digest (discovery_interest (pr_prefix P)) p = true /\ announces p (pr_vprefix P).
Proof.
  intros Hn Hok. exists (metadata_packet cv now (pr_vprefix P) (discovery_name (pr_prefix P))).
  assert (Hpre : is_prefix_of (discovery_name (pr_prefix P)) (discovery_name (pr_prefix P)) = true)
    by (apply is_prefix_of_spec; exists []; now rewrite app_nil_r).
  destruct (filters_disjoint cv now0 Hnow o Hsize prefix input (discovery_name (pr_prefix P))) as [_ H2].
  destruct (H2 Hpre) as [Hne Hv]. split; [|split].
  - unfold producer_replies. cbn [discovery_interest i_name]. rewrite Hpre, Hv.
    destruct (name_eqb _ _) eqn:E; [apply name_eqb_spec in E; contradiction|]. reflexivity.
  - unfold matches_data, metadata_packet, discovery_interest. cbn [k_name k_fresh i_name i_canBePrefix i_mustBeFresh].
    change (true && (10 <=? 0)%Z) with false. rewrite app_length. cbn [length].
    assert (E2 : Nat.eqb (length (discovery_name (pr_prefix P))) (length (discovery_name (pr_prefix P)) + 2 + 1) = false) by (apply Nat.eqb_neq; lia).
    cbn match. rewrite E2. apply is_prefix_of_spec. eauto.
  - split; [|split].
    + exists (pr_prefix P), (version_comp cv now), (segment_comp cv 0).
      unfold metadata_packet, discovery_name. cbn [k_name]. rewrite <- app_assoc. split; [reflexivity|].
      split; [now apply is_version_comp|]. unfold is_segment, segment_of, segment_comp.
      rewrite number_roundtrip; [reflexivity|unfold u64; lia|discriminate].
    + cbn. now apply decode_encode_name.
    + destruct (vprefix_shape cv now0 Hnow o prefix input) as (vc & H3 & H4). eauto.
Qed.

(** a client that discovers through this producer gets the name under which it serves *)
Lemma honest_discovery_name c es n :
  dc_prefix c = pr_prefix P -> dc_disable c = false ->
  (forall pre v, dc_prefix c = pre ++ [v] -> is_version v = false) ->
  name_ok (pr_vprefix P) ->
  honest_discovery digest cv P (dc_prefix c) (d_run c es) ->
  In (DoSuccess n) (d_run c es) -> n = pr_vprefix P.
Proof.
  intros Hp Hd Hv Hok Hh Hs. destruct (discovery_success c es n Hd Hv Hs) as (p & Hin & Ha).
  destruct (Hh p Hin) as [Hpub Hm]. rewrite Hp in Hm.
  destruct (published_cases digest cv now0 o prefix input p Hpub) as [(k & ch & Hk & ->)|(nw & rest & ->)].
  - exfalso. destruct (vprefix_shape cv now0 Hnow o prefix input) as (vc & H3 & H4).
    assert (Hne : forall x y, (discovery_name (pr_prefix P) ++ x) <> pr_vprefix P ++ y).
    { intros x y E. rewrite H3 in E. unfold discovery_name in E. rewrite <- !app_assoc in E.
      apply app_inv_head in E. cbn in E. injection E as E _. symmetry in E. now apply version_not_metadata in H4. }
    unfold matches_data in Hm. cbn [discovery_interest i_name i_canBePrefix i_mustBeFresh] in Hm.
    destruct (_ && _); [discriminate|]. destruct (Nat.eqb _ _).
    + destruct (last_comp _); [|discriminate]. apply andb_prop in Hm. destruct Hm as [_ Hm]. apply name_eqb_spec in Hm.
      rewrite <- (app_nil_r (discovery_name _)) in Hm. cbn [make_segment k_name] in Hm. rewrite <- app_assoc in Hm. now apply Hne in Hm.
    + apply is_prefix_of_spec in Hm. destruct Hm as (x & Hm). cbn [make_segment k_name] in Hm. symmetry in Hm. now apply Hne in Hm.
  - destruct Ha as (_ & Ha & _). cbn [metadata_packet k_content] in Ha. rewrite decode_encode_name in Ha by exact Hok. congruence.
Qed.
End Composed.
