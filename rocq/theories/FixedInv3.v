From Verif Require Import Base BaseFacts PipelineBase PipelineSpec FetcherModel AdaptiveProofs AdaptiveTheorems FixedModel FixedSpec FixedProofs FixedInv FixedInv2.

Section Inv3.
Variable C : xconfig.
Notation r := (xc_maxRetries C).
Notation hasFbi s := (b_hasFbi (x_b s)).
Notation last s := (b_last (x_b s)).
Notation stopping s := (b_stopping (x_b s)).
Notation slotAt s j := (nth_error (x_slots s) j).

(** * Start *)
Lemma doRun_ok k : forall i s,
  XI C s -> stopping s = false -> x_hasFailure s = false -> hasFbi s = false ->
  (i + k = xc_size C)%nat -> (forall j, (i <= j < xc_size C)%nat -> slotAt s j = Some None) ->
  let s' := x_doRun C k i s in
  XI C s' /\ x_crashed s' = x_crashed s /\ ((0 < k)%nat \/ Busy s -> stopping s' = false -> Busy s').
Proof.
  induction k as [|k IH]; intros i s HI Hs Hf Hb Hk Hslots; cbn [x_doRun].
  - split; [exact HI|]. split; [reflexivity|]. intros [?|?]; [lia|auto].
  - assert (Hfree : free s i). { unfold free. rewrite Hslots by lia. exact I. }
    assert (Hall : b_allReceived (x_b s) = false) by (unfold b_allReceived; rewrite Hb; lia).
    pose proof (fetchNext_ok C i s HI Hs Hall Hfree) as (H1 & H2 & H3).
    assert (Hok : snd (fetchNextSegment C i s) = true).
    { unfold fetchNextSegment. rewrite Hs, Hf. cbn. rewrite Hb. reflexivity. }
    specialize (H3 Hok). destruct (fetchNextSegment C i s) as [s1 ok]. cbn [fst snd] in *. subst ok.
    destruct H3 as (H3 & H4 & H5 & H6 & H7).
    destruct (IH (S i) s1) as (I1 & I2 & I3); auto.
    + apply H1.
    + congruence.
    + lia.
    + intros j Hj. rewrite H3, nth_upd. destruct (Nat.eqb_spec j i); [lia|]. apply Hslots. lia.
    + split; [exact I1|]. split; [congruence|]. auto.
Qed.

Lemma init_ok : XI C (x_init C).
Proof.
  split.
  - constructor; cbn; auto; try lia; try discriminate; try contradiction.
  - intros _. constructor; cbn; auto.
    + apply repeat_length.
    + intros i j f f' k H. apply nth_error_In, repeat_spec in H. discriminate.
    + intros j f k H. apply nth_error_In, repeat_spec in H. discriminate.
    + intros k H. lia.
Qed.

Lemma start_ok :
  let s := x_doRun C (xc_size C) 0 (x_init C) in
  XI C s /\ x_crashed s = false /\ ((0 < xc_size C)%nat -> stopping s = false -> Busy s).
Proof.
  destruct (doRun_ok (xc_size C) 0 (x_init C)) as (H1 & H2 & H3); auto using init_ok.
  intros j Hj. unfold x_init, x_slots.
  assert (H : nth_error (repeat (None : slot) (xc_size C)) j <> None).
  { apply nth_error_Some. rewrite repeat_length. lia. }
  destruct (nth_error (repeat (None : slot) (xc_size C)) j) as [o|] eqn:E; [|contradiction].
  pose proof (nth_error_In _ _ E) as E'. apply repeat_spec in E'. subst o. reflexivity.
Qed.

(** * After a segment was received *)
Lemma advance_ok i s :
  XI C s -> stopping s = false -> free s i -> newly (x_tr s) = true ->
  XJ C (x_advance C i s) /\ x_crashed (x_advance C i s) = x_crashed s.
Proof.
  intros HI Hs Hfree Hnew. unfold x_advance. destruct (b_allReceived (x_b s)) eqn:Hall.
  - split; [|reflexivity]. destruct HI as [HA HR]. specialize (HR Hs).
    assert (HG : XG C (x_tr s) ODone).
    { cbn. split; [now rewrite (X_end _ _ HA)|]. split; [exact Hnew|].
      unfold b_allReceived in Hall. rewrite (X_recv _ _ HA) in Hall.
      destruct (hasFbi s) eqn:Hb; [|lia]. exists (last s). rewrite (X_known _ _ HA), Hb. split; [reflexivity|lia]. }
    split; [split|].
    + destruct HA. constructor; cbn -[xtr_ok]; auto.
      * rewrite X_known. destruct (hasFbi s); reflexivity.
      * split; assumption.
      * intros Hf. destruct (X_hf Hf) as (k & Hk). exists k. now apply lostx_cons.
    + cbn. intros _. change (fbOf (x_emit ODone s)) with (fbOf s). destruct HR. constructor; cbn; auto.
      intros j f k H. eapply slot_ok_same; [| | |eapply Y_slot; eauto]; auto.
      unfold same_for. cbn. rewrite !count_cons. cbn. repeat split; auto; try lia. apply lostx_cons.
    + cbn. intros _. left. now left.
  - pose proof (fetchNext_ok C i s HI Hs Hall Hfree) as (H1 & H2 & _). auto.
Qed.

(** * The final segment becomes known *)
Lemma learn_running n l j f k :
  nth_error l j = Some (Some (f, k)) -> f_isRunning f = true ->
  let '(l', o, _) := x_learn n l in
  In (OAbandon k) o \/ nth_error l' j = Some (Some (f, k)).
Proof.
  revert j. induction l as [|x l IH]; intros j H Hr; [destruct j; discriminate|].
  destruct x as [[f0 k0]|]; cbn [x_learn].
  - destruct (N.ltb n k0) eqn:E.
    + destruct j as [|j].
      * injection H as -> ->. destruct (x_learn n l) as [[l' o] e]. left. cbn. rewrite Hr. now left.
      * specialize (IH j H Hr). destruct (x_learn n l) as [[l' o] e]. cbn in *.
        destruct IH; [left; apply in_or_app; now right|now right].
    + destruct (f_hasError f0) eqn:He.
      * right. exact H.
      * destruct j as [|j].
        { destruct (x_learn n l) as [[l' o] e]. right. exact H. }
        specialize (IH j H Hr). destruct (x_learn n l) as [[l' o] e]. exact IH.
  - destruct j as [|j]; [discriminate|]. specialize (IH j H Hr).
    destruct (x_learn n l) as [[l' o] e]. exact IH.
Qed.

Lemma learn_error n l k : snd (x_learn n l) = Some k ->
  exists j f, nth_error l j = Some (Some (f, k)) /\ f_hasError f = true /\ (k <= n)%N.
Proof.
  induction l as [|x l IH]; [discriminate|]. destruct x as [[f0 k0]|]; cbn [x_learn].
  - destruct (N.ltb_spec n k0).
    + destruct (x_learn n l) as [[l' o] e]. intros E. destruct (IH E) as (j & f & H1). exists (S j), f. exact H1.
    + destruct (f_hasError f0) eqn:He.
      * intros [= <-]. exists O, f0. auto.
      * destruct (x_learn n l) as [[l' o] e]. intros E. destruct (IH E) as (j & f & H1). exists (S j), f. exact H1.
  - destruct (x_learn n l) as [[l' o] e]. intros E. destruct (IH E) as (j & f & H1). exists (S j), f. exact H1.
Qed.

Definition learned (n : N) (x : slot) : slot :=
  match x with Some (f, k) => Some (if N.ltb n k then f_cancel f else f, k) | None => None end.

Lemma learn_ok n l : snd (x_learn n l) = None ->
  fst (fst (x_learn n l)) = map (learned n) l /\
  (forall k, In (OAbandon k) (snd (fst (x_learn n l))) -> (n < k)%N) /\
  (forall j f k, nth_error l j = Some (Some (f, k)) -> f_hasError f = true -> (n < k)%N).
Proof.
  induction l as [|x l IH]; [cbn; intros _; repeat split; [contradiction|intros [|j]; discriminate]|].
  destruct x as [[f0 k0]|]; cbn [x_learn map learned].
  - destruct (N.ltb_spec n k0) as [Hlt|Hge].
    + destruct (x_learn n l) as [[l' o] e]. cbn [fst snd] in *. intros E. destruct (IH E) as (-> & H2 & H3).
      split; [reflexivity|]. split.
      * intros k Hk. apply in_app_or in Hk. destruct Hk as [Hk|Hk]; [|auto].
        cbn in Hk. destruct (f_isRunning f0); [|contradiction]. destruct Hk as [[= <-]|[]]. exact Hlt.
      * intros [|j] f k H; [now injection H as <- <-|]. apply (H3 j f k H).
    + destruct (f_hasError f0) eqn:He; [discriminate|].
      destruct (x_learn n l) as [[l' o] e]. cbn [fst snd] in *. intros E. destruct (IH E) as (-> & H2 & H3).
      split; [reflexivity|]. split; [exact H2|].
      intros [|j] f k H; [injection H as <- <-; congruence|]. apply (H3 j f k H).
  - destruct (x_learn n l) as [[l' o] e]. cbn [fst snd] in *. intros E. destruct (IH E) as (-> & H2 & H3).
    split; [reflexivity|]. split; [exact H2|]. intros [|j] f k H; [discriminate|]. apply (H3 j f k H).
Qed.

Lemma learn_step i n s :
  XA C s -> XR C None s -> stopping s = false -> hasFbi s = true -> last s = n -> free s i -> newly (x_tr s) = true ->
  let '(l, o, e) := x_learn n (x_slots s) in
  let s' := withSlots l (rev o) s in
  match e with
  | Some k => XA C s' /\ XG C (x_tr s') (OFail (RSegment k))
  | None => XI C s' /\ free s' i /\ newly (x_tr s') = true
  end.
Proof.
  intros HA HR Hs Hb Hn Hfree Hnew.
  pose proof (learn_ab n (x_slots s)) as Hab. pose proof (learn_running n (x_slots s)) as Hrun.
  pose proof (learn_error n (x_slots s)) as Herr. pose proof (learn_ok n (x_slots s)) as Hok.
  destruct (x_learn n (x_slots s)) as [[l o] e]. cbn [fst snd] in *.
  assert (Hro : forall k, In (OAbandon k) (rev o) <-> In (OAbandon k) o) by (intros; symmetry; apply in_rev).
  apply forall_rev in Hab.
  assert (HA' : XA C (withSlots l (rev o) s)).
  { apply xa_withSlots; auto. intros j f k Hj Hf. destruct (Hrun j f k Hj Hf); [left; now apply Hro|right; eauto]. }
  destruct (abandons_neutral (rev o) (x_tr s) Hab) as (H1 & H2 & H3 & H4 & H5 & H6 & H7 & H8 & H9).
  destruct e as [k|].
  - split; [exact HA'|]. destruct (Herr k eq_refl) as (j & f & Hj & He & Hk).
    destruct (Y_slot _ _ _ HR j f k Hj) as (_ & _ & _ & HE & _). destruct (HE He) as (E1 & E2 & _).
    cbn [XG withSlots x_tr]. rewrite H2, H3, H4. split; [now rewrite (X_end _ _ HA)|].
    split; [now apply lostx_app|]. split; [exact E1|]. exists n. rewrite (X_known _ _ HA), Hb, Hn. auto.
  - destruct (Hok eq_refl) as (-> & K2 & K3).
    assert (Hslot : forall j f k, nth_error (map (learned n) (x_slots s)) j = Some (Some (f, k)) ->
               exists f0, slotAt s j = Some (Some (f0, k)) /\ f = if N.ltb n k then f_cancel f0 else f0).
    { intros j f k. rewrite nth_error_map. destruct (slotAt s j) as [[[f0 k0]|]|]; cbn; try discriminate.
      intros [= <- <-]. eauto. }
    split; [split; [exact HA'|]|split].
    + intros _. unfold fbOf. cbn [withSlots x_b]. rewrite Hb, Hn.
      constructor; cbn [withSlots x_slots x_b x_tr].
      * rewrite map_length. apply (Y_len _ _ _ HR).
      * intros a b fa fb k Ha Hb'. apply Hslot in Ha, Hb'. destruct Ha as (fa0 & Ha & _), Hb' as (fb0 & Hb' & _).
        eapply (Y_inj _ _ _ HR); eauto.
      * intros j f k Hj. destruct (Hslot j f k Hj) as (f0 & Hj0 & Ef).
        destruct (Y_slot _ _ _ HR j f0 k Hj0) as (S1 & S2 & S3 & S4 & S5).
        unfold slot_ok. cbn [withSlots x_tr x_hasFailure x_slots]. rewrite H1, H2, H6, H7.
        split; [exact S1|].
        destruct (N.ltb_spec n k) as [Hlt|Hge].
        { subst f. split.
          { unfold f_cancel. destruct (f_isRunning f0) eqn:Er; [reflexivity|].
            destruct (f_phase f0); [exact Er|destruct S2; congruence|destruct S2; congruence]. }
          split; [rewrite cancel_not_running; discriminate|]. split.
          - rewrite cancel_error. intros Hee. destruct (S4 Hee) as (A1 & A2 & A3). repeat split; auto. now apply lostx_app.
          - intros _ _ _. exact Hlt. }
        subst f0. assert (Hna : ~ In (OAbandon k) (rev o)). { rewrite Hro. intros Hx. apply K2 in Hx. lia. }
        split.
        { destruct (f_phase f); [exact S2|rewrite H9; tauto|rewrite H8, H9; tauto]. }
        split; [intros Hr; destruct (S3 Hr) as (A1 & A2 & A3); cbn; repeat split; auto; try tauto; lia|].
        split.
        { intros Hee. pose proof (K3 _ _ _ Hj0 Hee). lia. }
        intros Hr Hee Hd. specialize (S5 Hr Hee Hd). destruct S5 as (j' & f' & k' & A1 & A2 & A3).
        pose proof (K3 _ _ _ A1 A2). lia.
      * intros k. rewrite H1, H2. intros Hk. destruct (Y_cov _ _ _ HR k Hk) as [?|(j & f & Hj)]; [now left|right].
        exists j. eexists. rewrite nth_error_map, Hj. reflexivity.
      * rewrite H1. left. destruct (Y_phase _ _ _ HR) as [E|(x & E & _)]; [exact E|discriminate].
    + unfold free in *. cbn [withSlots x_slots x_tr]. rewrite nth_error_map.
      destruct (slotAt s i) as [[[f k]|]|]; cbn; auto. rewrite H2. destruct Hfree as (F1 & F2 & F3).
      destruct (N.ltb n k); [|auto]. rewrite cancel_not_running, cancel_error. auto.
    + cbn [withSlots x_tr]. now rewrite H5.
Qed.

(** * Data *)
Lemma same_for_data k k' d t : k' <> k -> same_for C k' t (ODeliver k d :: OGotData k d :: t).
Proof.
  intros Hne. unfold same_for. cbn. rewrite !in_remove, !count_cons. cbn.
  repeat split; auto; try lia; try tauto. - intuition congruence. - intros H. now apply lostx_cons, lostx_cons.
Qed.

Lemma data_ok i f k d s :
  XJ C s -> stopping s = false -> x_crashed s = false ->
  slotAt s i = Some (Some (f, k)) -> f_phase f = PhInterest ->
  let s' := x_slotEvent C i d FeData s in
  xtr_ok C (x_tr s') /\ (x_crashed s' = false -> XJ C s').
Proof.
  intros [[HA HR] _] Hs Hcr Hi Hp. specialize (HR Hs).
  destruct (Y_slot _ _ _ HR i f k Hi) as (S1 & S2 & S3 & S4 & S5). rewrite Hp in S2. destruct S2 as [Hrun Hfl].
  destruct (S3 Hrun) as (Hnd & Hnb & _ & _).
  destruct (f_data_case (x_fconfig C) f Hp Hrun) as (f' & Ef & F1 & F2 & F3).
  unfold x_slotEvent. rewrite Hi, Ef. cbn [fold_left x_react].
  unfold x_handleData. cbn [x_emit x_setSlots x_b x_setB x_slots x_tr x_hasFailure x_crashed]. rewrite Hs.
  set (t2 := ODeliver k d :: OGotData k d :: x_tr s).
  set (b2 := b_received d (x_b s)). set (l2 := upd i (Some (f', k)) (x_slots s)).
  change (b_hasFbi b2) with (hasFbi s).
  assert (Hok2 : xtr_ok C t2).
  { unfold t2. cbn -[known xend nf dl fl]. split; [|split; [exact Hfl|apply (X_ok _ _ HA)]].
    cbn. repeat split; auto. now rewrite (X_end _ _ HA). }
  (* the state after delivery, for a final segment [b3] that agrees with the trace *)
  assert (Hslot2 : forall j, nth_error l2 j = if Nat.eqb j i then Some (Some (f', k)) else slotAt s j).
  { intros j. unfold l2. rewrite nth_upd. destruct (Nat.eqb_spec j i) as [->|]; [now rewrite Hi|reflexivity]. }
  assert (HA2 : forall b3, b_next b3 = b_next (x_b s) -> b_nReceived b3 = b_nReceived (x_b s) + 1 ->
             b_stopping b3 = false -> known t2 = (if b_hasFbi b3 then Some (b_last b3) else None) ->
             XA C (XState b3 l2 (x_hasFailure s) (x_crashed s) t2)).
  { intros b3 E1 E2 E3 E4. destruct HA. constructor; cbn [x_tr x_b x_slots x_hasFailure]; auto.
    - unfold t2. cbn. rewrite E1. exact X_next.
    - unfold t2. cbn. intros x [<-|Hx]; [exact S1|auto].
    - rewrite E2, X_recv. unfold t2. cbn [dl length]. lia.
    - unfold t2. cbn. congruence.
    - intros Hf. destruct (X_hf Hf) as (y & Hy). exists y. now apply lostx_cons, lostx_cons.
    - unfold t2. cbn. intros x Hx. apply in_remove in Hx. destruct Hx as [Hx Hne].
      destruct (X_aw x Hx) as (j & fj & Hj & Hrj). exists j, fj. split; [|exact Hrj]. rewrite Hslot2.
      destruct (Nat.eqb_spec j i) as [->|]; [congruence|exact Hj].
    - congruence. }
  assert (HR2 : forall b3, b_next b3 = b_next (x_b s) ->
             XR C (fbOf s) (XState b3 l2 (x_hasFailure s) (x_crashed s) t2)).
  { intros b3 E1. apply (xr_update C (fbOf s) i f k f' s); auto.
    - now apply running_no_error.
    - unfold t2. cbn. auto.
    - intros k' Hne. now apply same_for_data.
    - unfold slot_ok. cbn [x_tr x_hasFailure x_slots]. rewrite F1, F2, F3. unfold t2 at 1. cbn [nf].
      split; [exact S1|]. split; [reflexivity|]. split; [discriminate|]. split; [discriminate|].
      intros _ _ Hx. exfalso. apply Hx. unfold t2. cbn. now left. }
  assert (Hfree : forall b3, free (XState b3 l2 (x_hasFailure s) (x_crashed s) t2) i).
  { intros b3. unfold free. cbn [x_slots x_tr]. rewrite Hslot2, Nat.eqb_refl. unfold t2. cbn. auto. }
  assert (Hnew : newly t2 = true) by reflexivity.
  assert (Hkn : hasFbi s = true -> known t2 = Some (last s)).
  { intros Hb. unfold t2. cbn. now rewrite (X_known _ _ HA), Hb. }
  assert (Hkn2 : hasFbi s = false -> known t2 = fbi_of d).
  { intros Hb. unfold t2. cbn. rewrite (X_known _ _ HA), Hb. destruct (fbi_of d); reflexivity. }
  destruct (xc_cbThrows C d).
  { cbn -[xtr_ok]. split; [split; [exact I|exact Hok2]|discriminate]. }
  change (b_hasFbi b2) with (hasFbi s).
  assert (Hsame : known t2 = (if hasFbi s then Some (last s) else None) ->
     let s' := x_advance C i (XState b2 l2 (x_hasFailure s) (x_crashed s) t2) in
     xtr_ok C (x_tr s') /\ (x_crashed s' = false -> XJ C s')).
  { intros Hk. cbv zeta.
    destruct (advance_ok i (XState b2 l2 (x_hasFailure s) (x_crashed s) t2)) as [HJ Hc].
    - split; [now apply HA2|]. intros _. apply (HR2 b2 eq_refl).
    - exact Hs.
    - apply Hfree.
    - exact Hnew.
    - split; [apply HJ|]. intros _. exact HJ. }
  destruct (hasFbi s) eqn:Hb.
  { apply Hsame. auto. }
  destruct (d_fbi d) as [|n|] eqn:Hd.
  { apply Hsame. rewrite Hkn2 by reflexivity. unfold fbi_of. now rewrite Hd. }
  2: { cbn -[xtr_ok]. split; [split; [exact I|exact Hok2]|discriminate]. }
  assert (Hk3 : known t2 = Some n). { rewrite Hkn2 by reflexivity. unfold fbi_of. now rewrite Hd. }
  set (s3 := XState (b_setFbi n b2) l2 (x_hasFailure s) (x_crashed s) t2).
  assert (HA3 : XA C s3) by (apply HA2; auto).
  assert (HR3 : XR C None s3). { pose proof (HR2 (b_setFbi n b2) eq_refl) as H. unfold fbOf in H. rewrite Hb in H. exact H. }
  pose proof (learn_step i n s3 HA3 HR3 Hs eq_refl eq_refl (Hfree _) Hnew) as HL.
  change (x_slots s3) with l2 in HL.
  destruct (x_learn n l2) as [[l o] e]. cbv zeta in HL. unfold withSlots in HL.
  change (x_b s3) with (b_setFbi n b2) in HL. change (x_hasFailure s3) with (x_hasFailure s) in HL.
  change (x_crashed s3) with (x_crashed s) in HL. change (x_tr s3) with t2 in HL.
  destruct e as [ke|].
  - destruct HL as [L1 L2]. destruct (xi_onFailure C (RSegment ke) _ L1 Hs L2) as (J1 & _ & _).
    split; [apply J1|]. intros _. exact J1.
  - destruct HL as (L1 & L2 & L3). destruct (advance_ok i _ L1 Hs L2 L3) as [J1 _].
    split; [apply J1|]. intros _. exact J1.
Qed.
End Inv3.
