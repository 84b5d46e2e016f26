From Verif Require Import Base BaseFacts PipelineBase PipelineSpec FetcherModel AdaptiveProofs AdaptiveTheorems FixedModel FixedSpec FixedProofs FixedInv FixedInv2 FixedInv3.

Section Inv4.
Variable C : xconfig.
Notation r := (xc_maxRetries C).
Notation hasFbi s := (b_hasFbi (x_b s)).
Notation last s := (b_last (x_b s)).
Notation stopping s := (b_stopping (x_b s)).
Notation slotAt s j := (nth_error (x_slots s) j).

(** [t1] extends [t] by a Nack, an expiry or a timer event for segment [k] *)
Record after_input (k : N) (t t1 : list pobs) : Prop := {
  N_ok  : xtr_ok C t1;
  N_nf  : nf t1 = nf t;
  N_dl  : dl t1 = dl t;
  N_kn  : known t1 = known t;
  N_end : xend t1 = xend t;
  N_fl  : forall k', In k' (fl t1) <-> In k' (fl t) /\ k' <> k;
  N_aw  : forall k', In k' (aw t1) -> In k' (aw t) /\ (k' = k -> t1 = t);
  N_oth : forall k', k' <> k -> same_for C k' t t1;
  N_lost: forall k', lostx C t k' -> lostx C t1 k'
}.

Lemma after_got k x t :
  xtr_ok C t -> In k (fl t) -> (x = OGotExpiry k \/ exists rr, x = OGotNack k rr) ->
  after_input k t (x :: t).
Proof.
  intros Hok Hfl Hx.
  assert (Hcn : forall k' t', count (nack_for k') (x :: t') = (if nack_for k' x then 1 else 0) + count (nack_for k') t')
    by (intros; apply count_cons).
  assert (Hfx : fl (x :: t) = remove N.eq_dec k (fl t) /\ aw (x :: t) = remove N.eq_dec k (aw t)).
  { destruct Hx as [->|(rr & ->)]; split; reflexivity. }
  destruct Hfx as [Hf Ha].
  constructor.
  - split; [|exact Hok]. destruct Hx as [->|(rr & ->)]; exact Hfl.
  - destruct Hx as [->|(rr & ->)]; reflexivity.
  - destruct Hx as [->|(rr & ->)]; reflexivity.
  - destruct Hx as [->|(rr & ->)]; cbn; destruct (known t); reflexivity.
  - destruct Hx as [->|(rr & ->)]; reflexivity.
  - intros k'. rewrite Hf. apply in_remove.
  - intros k'. rewrite Ha, in_remove. intros [H1 H2]. split; [exact H1|]. intros ->. contradiction.
  - intros k' Hne. unfold same_for. rewrite Hf, Ha, !in_remove, !count_cons.
    split; [destruct Hx as [->|(rr & ->)]; cbn; lia|].
    split; [destruct Hx as [->|(rr & ->)]; reflexivity|].
    split; [tauto|]. split; [tauto|].
    assert (E : N.eqb k k' = false) by (apply N.eqb_neq; congruence).
    split; [destruct Hx as [->|(rr & ->)]; cbn; rewrite ?E; lia|].
    split; [destruct Hx as [->|(rr & ->)]; cbn; rewrite ?E; lia|]. apply lostx_cons.
  - intros k'. apply lostx_cons.
Qed.

Lemma after_none k t : xtr_ok C t -> ~ In k (fl t) -> after_input k t t.
Proof.
  intros Hok Hfl. constructor; auto.
  - intros k'. split; [|tauto]. intros H. split; [exact H|]. intros ->. contradiction.
  - intros k' _. unfold same_for. repeat split; auto; lia.
Qed.

(** * A retry is made or scheduled *)
Lemma retry_ok i f k f' o t1 s :
  XJ C s -> stopping s = false -> slotAt s i = Some (Some (f, k)) -> f_isRunning f = true ->
  after_input k (x_tr s) t1 -> f_isRunning f' = true ->
  f_nNacks f' = (if Z.eqb r (-1) then 0 else count (nack_for k) t1) ->
  f_nTimeouts f' = (if Z.eqb r (-1) then 0 else count (expiry_for k) t1) ->
  (o = OInterest k true /\ f_phase f' = PhInterest \/ exists ms, o = OBackoff k ms /\ f_phase f' = PhTimer) ->
  XJ C (XState (x_b s) (upd i (Some (f', k)) (x_slots s)) (x_hasFailure s) (x_crashed s) (o :: t1)).
Proof.
  intros [[HA HR] _] Hs Hi Hrun HN Hrun' Hnn Hnt Ho. specialize (HR Hs).
  destruct (Y_slot _ _ _ HR i f k Hi) as (S1 & _ & S3 & _ & _). destruct (S3 Hrun) as (Hnd & Hnb & _).
  set (l2 := upd i (Some (f', k)) (x_slots s)).
  assert (Hslot2 : forall j, nth_error l2 j = if Nat.eqb j i then Some (Some (f', k)) else slotAt s j).
  { intros j. unfold l2. rewrite nth_upd. destruct (Nat.eqb_spec j i) as [->|]; [now rewrite Hi|reflexivity]. }
  assert (Hilt : (i < length (x_slots s))%nat) by (apply nth_error_Some; congruence).
  destruct HN as [N1 N2 N3 N4 N5 N6 N7 N8 N9].
  assert (HG : XG C t1 o).
  { destruct Ho as [[-> _]|(ms & -> & _)]; [|exact I]. cbn. rewrite N2, N3, N4, N5.
    split; [now rewrite (X_end _ _ HA)|]. split.
    { intros n Hn. rewrite (X_known _ _ HA) in Hn. unfold fbOf in Hnb. destruct (hasFbi s); [|discriminate].
      injection Hn as <-. cbn in Hnb. lia. }
    split; [rewrite N6; tauto|]. split; [|auto].
    rewrite <- (Y_len _ _ _ HR). apply (fewer (fl t1) (x_slots s) i); auto using nodup_fl.
    intros k' Hk'. apply N6 in Hk'. destruct Hk' as [Hk' Hne].
    destruct (X_aw _ _ HA k' (fl_aw _ _ Hk')) as (j & fj & Hj & _). exists j, fj. split; [exact Hj|].
    intros ->. congruence. }
  assert (Hnf : nf (o :: t1) = nf (x_tr s)) by (rewrite <- N2; destruct Ho as [[-> _]|(ms & -> & _)]; reflexivity).
  assert (Hdl : dl (o :: t1) = dl (x_tr s)) by (rewrite <- N3; destruct Ho as [[-> _]|(ms & -> & _)]; reflexivity).
  assert (Haw : aw (o :: t1) = k :: remove N.eq_dec k (aw t1)) by (destruct Ho as [[-> _]|(ms & -> & _)]; reflexivity).
  assert (Hc : forall k', count (nack_for k') (o :: t1) = count (nack_for k') t1 /\ count (expiry_for k') (o :: t1) = count (expiry_for k') t1).
  { intros k'. rewrite !count_cons. destruct Ho as [[-> _]|(ms & -> & _)]; cbn; lia. }
  split; [split|].
  - destruct HA. constructor; cbn [x_tr x_b x_slots x_hasFailure]; auto.
    + now rewrite Hnf.
    + rewrite Hdl, Hnf. exact X_dl.
    + destruct Ho as [[-> _]|(ms & -> & _)]; cbn; rewrite N4, X_known; destruct (hasFbi s); reflexivity.
    + now rewrite Hdl.
    + destruct Ho as [[-> _]|(ms & -> & _)]; cbn; congruence.
    + split; assumption.
    + intros Hf. destruct (X_hf Hf) as (y & Hy). exists y. now apply lostx_cons, N9.
    + rewrite Haw. intros k' [<-|Hk'].
      * exists i, f'. now rewrite Hslot2, Nat.eqb_refl.
      * apply in_remove in Hk'. destruct Hk' as [Hk' Hne]. apply N7 in Hk'. destruct Hk' as [Hk' _].
        destruct (X_aw k' Hk') as (j & fj & Hj & Hrj). exists j, fj. split; [|exact Hrj].
        rewrite Hslot2. destruct (Nat.eqb_spec j i) as [->|]; [congruence|exact Hj].
    + congruence.
  - intros _. apply (xr_update C (fbOf s) i f k f' s); auto.
    + now apply running_no_error.
    + cbn [x_tr]. rewrite Hdl. auto.
    + intros k' Hne. destruct (N8 k' Hne) as (A1 & A2 & A3 & A4 & A5 & A6 & A7).
      unfold same_for. cbn [x_tr]. rewrite Hnf, Hdl, Haw. destruct (Hc k') as [-> ->]. rewrite A5, A6.
      split; [lia|]. split; [reflexivity|]. split.
      { rewrite <- A3. destruct Ho as [[-> _]|(ms & -> & _)]; cbn; [|reflexivity]. rewrite in_remove. intuition congruence. }
      split; [rewrite <- A4; cbn; rewrite in_remove; intuition congruence|].
      split; [reflexivity|]. split; [reflexivity|]. intros H. now apply lostx_cons, A7.
    + unfold slot_ok. cbn [x_tr x_hasFailure x_slots]. rewrite Hnf, Hdl, Haw. destruct (Hc k) as [-> ->].
      split; [exact S1|]. split.
      { destruct Ho as [[-> ->]|(ms & -> & ->)]; cbn; [auto|].
        rewrite N6. split; [exact Hrun'|]. split; [now left|tauto]. }
      split; [intros _; auto|].
      split; [intros He; rewrite (running_no_error _ Hrun') in He; discriminate|congruence].
  - intros _. right. exists i, f', k. split; [|exact Hrun']. cbn [x_slots]. fold l2. now rewrite Hslot2, Nat.eqb_refl.
Qed.

(** * The fetcher in a slot gives up *)
Lemma fail_ok i f k f' t1 s :
  XJ C s -> stopping s = false -> slotAt s i = Some (Some (f, k)) -> f_isRunning f = true ->
  after_input k (x_tr s) t1 -> t1 <> x_tr s -> f_isRunning f' = false -> f_hasError f' = true -> f_phase f' = PhNone ->
  lostx C t1 k ->
  XJ C (x_handleFail k (XState (x_b s) (upd i (Some (f', k)) (x_slots s)) (x_hasFailure s) (x_crashed s) t1)) /\
  x_crashed (x_handleFail k (XState (x_b s) (upd i (Some (f', k)) (x_slots s)) (x_hasFailure s) (x_crashed s) t1)) = x_crashed s.
Proof.
  intros [[HA HR] _] Hs Hi Hrun HN Ht1 Hrun' Herr' Hph' Hlost. specialize (HR Hs).
  destruct (Y_slot _ _ _ HR i f k Hi) as (S1 & _ & S3 & _ & _). destruct (S3 Hrun) as (Hnd & Hnb & _).
  set (l2 := upd i (Some (f', k)) (x_slots s)).
  assert (Hslot2 : forall j, nth_error l2 j = if Nat.eqb j i then Some (Some (f', k)) else slotAt s j).
  { intros j. unfold l2. rewrite nth_upd. destruct (Nat.eqb_spec j i) as [->|]; [now rewrite Hi|reflexivity]. }
  destruct HN as [N1 N2 N3 N4 N5 N6 N7 N8 N9].
  set (s1 := XState (x_b s) l2 (x_hasFailure s) (x_crashed s) t1).
  assert (HA1 : XA C s1).
  { destruct HA. constructor; unfold s1; cbn [x_tr x_b x_slots x_hasFailure]; rewrite ?N2, ?N3, ?N4, ?N5; auto.
    - intros Hf. destruct (X_hf Hf) as (y & Hy). exists y. auto.
    - intros k' Hk'. apply N7 in Hk'. destruct Hk' as [Hk' Hne].
      assert (k' <> k) by (intros ->; apply Ht1; auto).
      destruct (X_aw k' Hk') as (j & fj & Hj & Hrj). exists j, fj. split; [|exact Hrj].
      rewrite Hslot2. destruct (Nat.eqb_spec j i) as [->|]; [congruence|exact Hj].
    - congruence. }
  unfold x_handleFail. fold s1. change (x_b s1) with (x_b s). rewrite Hs.
  destruct (hasFbi s) eqn:Hb; cbn [andb].
  { unfold fbOf in Hnb. rewrite Hb in Hnb. cbn in Hnb.
    assert (Hkl : (k <= last s)%N) by (apply N.nlt_ge; exact Hnb). rewrite (proj2 (N.leb_le _ _) Hkl).
    destruct (xi_onFailure C (RFetch k) s1 HA1 Hs) as (J1 & _ & J3); [|split; [exact J1|exact J3]].
    cbn. rewrite N3, N4, N5. split; [now rewrite (X_end _ _ HA)|]. repeat split; auto.
    exists (last s). rewrite (X_known _ _ HA), Hb. auto. }
  change (x_slots s1) with l2.
  set (o := rev (flat_map (x_abandonAfter k) l2)).
  set (s2 := XState (x_b s) (map (x_cancelAfter k) l2) (x_hasFailure s1) (x_crashed s1) (o ++ x_tr s1)).
  assert (Hab : Forall (fun x => is_ab x = true) o).
  { apply forall_rev, flat_ab. intros [[fx kx]|]; cbn; [|constructor].
    destruct (k <? kx)%N; [|constructor]. apply (abandoned_ab (Some (fx, kx))). }
  assert (Hin : forall x, In (OAbandon x) o -> (k < x)%N).
  { intros x Hx. unfold o in Hx. apply in_rev in Hx. apply in_flat_map in Hx.
    destruct Hx as ([[fx kx]|] & _ & Hx); cbn in Hx; [|contradiction].
    destruct (N.ltb_spec k kx); [|contradiction]. destruct (f_isRunning fx); [|contradiction].
    destruct Hx as [[= <-]|[]]. assumption. }
  assert (HA2 : XA C s2).
  { apply (xa_withSlots C (map (x_cancelAfter k) l2) o s1); auto.
    intros j fj kj Hj Hrj. destruct (N.ltb_spec k kj) as [Hlt|Hge].
    - left. unfold o. rewrite <- in_rev. apply in_flat_map. exists (Some (fj, kj)).
      split; [eapply nth_error_In; eauto|]. cbn. destruct (N.ltb_spec k kj); [|lia]. rewrite Hrj. now left.
    - right. exists fj. split; [|exact Hrj]. rewrite nth_error_map. cbn [s1 x_slots] in Hj. rewrite Hj. cbn.
      destruct (N.ltb_spec k kj); [lia|reflexivity]. }
  destruct (abandons_neutral o t1 Hab) as (H1 & H2 & H3 & H4 & H5 & H6 & H7 & H8 & H9).
  destruct (existsb (x_runsBefore k) l2) eqn:Hgo.
  - split; [|reflexivity].
    assert (HA3 : XA C (x_setFailure s2)).
    { destruct HA2. constructor; cbn; auto. intros _. exists k. now apply lostx_app. }
    assert (Hmap : forall j fj kj, nth_error (map (x_cancelAfter k) l2) j = Some (Some (fj, kj)) ->
               exists f0, nth_error l2 j = Some (Some (f0, kj)) /\ fj = if N.ltb k kj then f_cancel f0 else f0).
    { intros j fj kj. rewrite nth_error_map. destruct (nth_error l2 j) as [[[f0 k0]|]|]; cbn; try discriminate.
      destruct (N.ltb k k0) eqn:E; intros [= <- <-]; rewrite ?E; eauto. }
    assert (Hii : nth_error (map (x_cancelAfter k) l2) i = Some (Some (f', k))).
    { rewrite nth_error_map, Hslot2, Nat.eqb_refl. cbn. now rewrite N.ltb_irrefl. }
    split; [split; [exact HA3|]|].
    + intros _. unfold fbOf. cbn [x_setFailure s2 x_b]. rewrite Hb. unfold fbOf in HR. rewrite Hb in HR.
      constructor; cbn [x_setFailure s2 x_b x_slots x_tr s1]; rewrite ?H1, ?H2, ?N2, ?N3.
      * rewrite map_length. unfold l2. rewrite length_upd. apply (Y_len _ _ _ HR).
      * intros a b fa fb ka Ha Hb'. apply Hmap in Ha, Hb'. destruct Ha as (fa0 & Ha & _), Hb' as (fb0 & Hb' & _).
        rewrite Hslot2 in Ha, Hb'.
        destruct (Nat.eqb_spec a i) as [->|Hai], (Nat.eqb_spec b i) as [->|Hbi]; auto.
        -- injection Ha as <- <-. symmetry. eapply (Y_inj _ _ _ HR); eauto.
        -- injection Hb' as <- <-. eapply (Y_inj _ _ _ HR); eauto.
        -- eapply (Y_inj _ _ _ HR); eauto.
      * intros j fj kj Hj. destruct (Hmap j fj kj Hj) as (f0 & Hj0 & Ef). rewrite Hslot2 in Hj0.
        destruct (Nat.eqb_spec j i) as [->|Hji].
        { injection Hj0 as <- <-. rewrite N.ltb_irrefl in Ef. subst fj.
          unfold slot_ok. cbn [x_setFailure s2 x_b x_slots x_tr x_hasFailure s1]. rewrite ?H1, ?H2, ?N2, ?N3, Hph', Hrun', Herr'.
          split; [exact S1|]. split; [reflexivity|]. split; [discriminate|]. split; [|discriminate].
          intros _. repeat split; auto. now apply lostx_app. }
        assert (Hne : kj <> k). { intros ->. apply Hji. eapply (Y_inj _ _ _ HR); eauto. }
        destruct (Y_slot _ _ _ HR j f0 kj Hj0) as (T1 & T2 & T3 & T4 & T5).
        destruct (N8 kj Hne) as (A1 & A2 & A3 & A4 & A5 & A6 & A7).
        unfold slot_ok. cbn [x_setFailure s2 x_b x_slots x_tr x_hasFailure s1].
        rewrite H1, H2, H6, H7, N2, N3, A5, A6.
        split; [exact T1|].
        destruct (N.ltb_spec k kj) as [Hlt|Hge].
        { subst fj. split.
          { unfold f_cancel. destruct (f_isRunning f0) eqn:Er; [reflexivity|].
            destruct (f_phase f0); [exact Er|destruct T2; congruence|destruct T2; congruence]. }
          split; [rewrite cancel_not_running; discriminate|]. split.
          - rewrite cancel_error. intros Hee. destruct (T4 Hee) as (B1 & B2 & B3). repeat split; auto.
            apply lostx_app. now apply A7.
          - intros _ _ _. exists i, f', k. auto. }
        subst fj. assert (Hna : ~ In (OAbandon kj) o). { intros Hx. apply Hin in Hx. apply N.nlt_ge in Hge. contradiction. }
        split.
        { destruct (f_phase f0); [exact T2|rewrite H9, A3; tauto|rewrite H8, H9, A3, A4; tauto]. }
        split; [exact T3|]. split.
        { intros Hee. destruct (T4 Hee) as (B1 & B2 & B3). repeat split; auto. apply lostx_app. now apply A7. }
        intros Hr0 He0 Hd0. specialize (T5 Hr0 He0 Hd0). destruct T5 as (j' & f'' & k'' & B1 & B2 & B3).
        assert (Hj'i : j' <> i). { intros ->. rewrite Hi in B1. injection B1 as <- <-. rewrite (running_no_error _ Hrun) in B2. discriminate. }
        exists j', f'', k''. split; [|auto]. rewrite nth_error_map, Hslot2.
        destruct (Nat.eqb_spec j' i); [contradiction|]. rewrite B1. cbn.
        destruct (N.ltb_spec k k''); [|reflexivity]. unfold f_cancel.
        assert (f_isRunning f'' = false) as ->; [|reflexivity].
        unfold f_isRunning. rewrite B2. now destruct (f_stopped f'').
      * intros k0 Hk0. destruct (Y_cov _ _ _ HR k0 Hk0) as [?|(j & f1 & Hj)]; [now left|right].
        destruct (Nat.eq_dec j i) as [->|Hji].
        -- rewrite Hi in Hj. injection Hj as <- <-. eauto.
        -- exists j, (if N.ltb k k0 then f_cancel f1 else f1). rewrite nth_error_map, Hslot2. destruct (Nat.eqb_spec j i); [contradiction|].
           rewrite Hj. cbn. destruct (N.ltb k k0); reflexivity.
      * apply (Y_phase _ _ _ HR).
    + intros _. right. apply existsb_exists in Hgo. destruct Hgo as (x & Hx & Hxr).
      destruct x as [[fx kx]|]; [|discriminate]. cbn in Hxr. apply andb_prop in Hxr. destruct Hxr as [Hx1 Hx2].
      apply In_nth_error in Hx. destruct Hx as (j & Hj). exists j, fx, kx. split; [|exact Hx2].
      cbn [x_setFailure s2 x_slots]. rewrite nth_error_map, Hj. cbn. apply negb_true_iff in Hx1. now rewrite Hx1.
  - destruct (xi_onFailure C RNoFinal s2 HA2 Hs) as (J1 & _ & J3); [|split; [exact J1|exact J3]].
    cbn [XG s2 x_tr s1]. rewrite H2, H3, H4, N3, N4, N5. split; [now rewrite (X_end _ _ HA)|].
    split; [exists k; now apply lostx_app|]. intros n Hn. rewrite (X_known _ _ HA), Hb in Hn. discriminate.
Qed.

(** * Every event *)
Definition XT (s : xstate) : Prop := xtr_ok C (x_tr s) /\ (x_crashed s = false -> XJ C s).

Lemma slotEvent_idle i d e s f k :
  slotAt s i = Some (Some (f, k)) -> f_phase f = PhNone -> e <> FeCancel -> x_slotEvent C i d e s = s.
Proof.
  intros Hi Hp He. unfold x_slotEvent. rewrite Hi.
  assert (E : f_step (x_fconfig C) f e = (f, [])) by (unfold f_step; destruct e; rewrite ?Hp; congruence).
  rewrite E. cbn. rewrite upd_same by exact Hi. now destruct s.
Qed.

Lemma nn_step (m : Z) (p : pobs -> bool) x t :
  m = (if Z.eqb r (-1) then 0 else count p t) -> p x = true ->
  (if Z.eqb r (-1) then m else m + 1) = (if Z.eqb r (-1) then 0 else count p (x :: t)).
Proof. intros -> Hp. rewrite count_cons, Hp. destruct (r =? -1); lia. Qed.
Lemma nn_same (m : Z) (p : pobs -> bool) x t :
  m = (if Z.eqb r (-1) then 0 else count p t) -> p x = false ->
  m = (if Z.eqb r (-1) then 0 else count p (x :: t)).
Proof. intros -> Hp. rewrite count_cons, Hp. destruct (r =? -1); lia. Qed.

Lemma slotEvent_ok i d e s :
  XT s -> x_crashed s = false -> e <> FeCancel -> XT (x_slotEvent C i d e s).
Proof.
  intros [Hok HJ] Hcr He. specialize (HJ Hcr).
  assert (Hdone : forall s', XJ C s' -> XT s') by (intros s' H; split; [apply H|auto]).
  destruct (stopping s) eqn:Hs.
  { unfold x_slotEvent. rewrite (X_stop _ _ (proj1 (proj1 HJ)) Hs). destruct i; split; auto. }
  pose proof (proj2 (proj1 HJ) Hs) as HR.
  destruct (slotAt s i) as [[[f k]|]|] eqn:Hi.
  2,3: unfold x_slotEvent; rewrite Hi; split; auto.
  destruct (Y_slot _ _ _ HR i f k Hi) as (S1 & S2 & S3 & S4 & S5).
  destruct (f_phase f) eqn:Hp.
  - erewrite slotEvent_idle; eauto.
  - destruct S2 as [Hrun Hfl]. destruct (S3 Hrun) as (Hnd & Hnb & Hnn & Hnt).
    destruct e as [|rr| | |]; [| | | |congruence].
    + apply (data_ok C i f k d s HJ Hs Hcr Hi Hp).
    + pose proof (f_nack_cases (x_fconfig C) f rr Hp Hrun) as (f' & E1 & E2 & Hcase).
      cbn [x_fconfig fc_maxNack] in E2, Hcase.
      assert (Hnn' : f_nNacks f' = (if Z.eqb r (-1) then 0 else count (nack_for k) (OGotNack k rr :: x_tr s))).
      { rewrite E2. apply nn_step; [exact Hnn|]. cbn. apply N.eqb_refl. }
      assert (Hnt' : f_nTimeouts f' = (if Z.eqb r (-1) then 0 else count (expiry_for k) (OGotNack k rr :: x_tr s))).
      { rewrite E1. apply nn_same; auto. }
      assert (HN : after_input k (x_tr s) (OGotNack k rr :: x_tr s)) by (apply after_got; eauto).
      unfold x_slotEvent. rewrite Hi.
      destruct Hcase as [(-> & F1 & F2)|[(ms & -> & F1 & F2)|(c & -> & F1 & F2 & F3 & F4)]]; cbn [fold_left x_react x_emit x_setSlots x_b x_slots x_hasFailure x_crashed x_tr].
      * apply Hdone. exact (retry_ok i f k f' (OInterest k true) _ s HJ Hs Hi Hrun HN F1 Hnn' Hnt' (or_introl (conj eq_refl F2))).
      * apply Hdone. exact (retry_ok i f k f' (OBackoff k ms) _ s HJ Hs Hi Hrun HN F1 Hnn' Hnt' (or_intror (ex_intro _ ms (conj eq_refl F2)))).
      * destruct (fail_ok i f k f' (OGotNack k rr :: x_tr s) s HJ Hs Hi Hrun HN) as [J1 J2]; auto.
        -- intros E. apply (f_equal (@length _)) in E. cbn in E. lia.
        -- destruct F4 as [[G1 G2]|[G1 G2]]; [left; exists rr; cbn; auto|right]. split; [exact G1|left].
           rewrite <- E2, Hnn' in G2. destruct (Z.eqb_spec r (-1)); [contradiction|exact G2].
    + pose proof (f_timeout_cases (x_fconfig C) f Hp Hrun) as (f' & E1 & E2 & Hcase).
      cbn [x_fconfig fc_maxTimeout] in E2, Hcase.
      assert (Hnt' : f_nTimeouts f' = (if Z.eqb r (-1) then 0 else count (expiry_for k) (OGotExpiry k :: x_tr s))).
      { rewrite E2. apply nn_step; [exact Hnt|]. cbn. apply N.eqb_refl. }
      assert (Hnn' : f_nNacks f' = (if Z.eqb r (-1) then 0 else count (nack_for k) (OGotExpiry k :: x_tr s))).
      { rewrite E1. apply nn_same; auto. }
      assert (HN : after_input k (x_tr s) (OGotExpiry k :: x_tr s)) by (apply after_got; eauto).
      unfold x_slotEvent. rewrite Hi.
      destruct Hcase as [(-> & F1 & F2)|(c & -> & F1 & F2 & F3 & F4)]; cbn [fold_left x_react x_emit x_setSlots x_b x_slots x_hasFailure x_crashed x_tr].
      * apply Hdone. exact (retry_ok i f k f' (OInterest k true) _ s HJ Hs Hi Hrun HN F1 Hnn' Hnt' (or_introl (conj eq_refl F2))).
      * destruct (fail_ok i f k f' (OGotExpiry k :: x_tr s) s HJ Hs Hi Hrun HN) as [J1 J2]; auto.
        -- intros E. apply (f_equal (@length _)) in E. cbn in E. lia.
        -- right. destruct F4 as [G1 G2]. split; [exact G1|right].
           rewrite <- E2, Hnt' in G2. destruct (Z.eqb_spec r (-1)); [contradiction|exact G2].
    + assert (E : f_step (x_fconfig C) f FeTimer = (f, [])) by (unfold f_step; now rewrite Hp).
      unfold x_slotEvent. rewrite Hi, E. cbn. rewrite upd_same by exact Hi. destruct s. split; auto.
  - destruct S2 as (Hrun & Haw & Hfl). destruct (S3 Hrun) as (Hnd & Hnb & Hnn & Hnt).
    destruct e as [|rr| | |]; [| | | |congruence].
    1,2,3: unfold x_slotEvent; rewrite Hi; unfold f_step; rewrite Hp; cbn; rewrite upd_same by exact Hi; destruct s; split; auto.
    destruct (f_timer_case (x_fconfig C) f Hp Hrun) as (f' & E & F1 & F2 & F3 & F4).
    unfold x_slotEvent. rewrite Hi, E. cbn [fold_left x_react x_emit x_setSlots x_b x_slots x_hasFailure x_crashed x_tr].
    apply Hdone. apply (retry_ok i f k f' (OInterest k true) (x_tr s) s); auto using after_none.
    + now rewrite F3.
    + now rewrite F4.
Qed.

Lemma step_ok s e : XT s -> XT (x_step C s e).
Proof.
  intros HT. unfold x_step. destruct (x_crashed s) eqn:Hcr; [exact HT|].
  destruct e; try (apply slotEvent_ok; auto; discriminate).
  assert (HJ : XJ C s) by (apply HT; exact Hcr).
  pose proof (xj_cancel C s HJ) as H. split; [apply H|auto].
Qed.

Lemma run_ok es : (0 < xc_size C)%nat -> XT (x_run C es).
Proof.
  intros H0. unfold x_run. apply fold_left_inv; [intros; now apply step_ok|].
  destruct (start_ok C) as (H1 & H2 & H3). split; [apply H1|]. intros _. split; [exact H1|]. intros Hs. right. auto.
Qed.
End Inv4.
