From Verif Require Import Base BaseFacts PipelineBase PipelineSpec FetcherModel AdaptiveProofs AdaptiveTheorems FixedModel FixedSpec FixedProofs.

(** * The fetcher in a slot *)
Lemma f_nack_cases c f rr :
  f_phase f = PhInterest -> f_isRunning f = true ->
  let n' := if Z.eqb (fc_maxNack c) (-1) then f_nNacks f else f_nNacks f + 1 in
  exists f', f_nTimeouts f' = f_nTimeouts f /\ f_nNacks f' = n' /\
  ((f_step c f (FeNack rr) = (f', [FoGotNack rr; FoInterest]) /\ f_isRunning f' = true /\ f_phase f' = PhInterest) \/
   (exists ms, f_step c f (FeNack rr) = (f', [FoGotNack rr; FoBackoff ms]) /\ f_isRunning f' = true /\ f_phase f' = PhTimer) \/
   (exists k, f_step c f (FeNack rr) = (f', [FoGotNack rr; FoFailCb k]) /\ f_hasError f' = true /\
              f_isRunning f' = false /\ f_phase f' = PhNone /\
              ((rr <> NrDuplicate /\ rr <> NrCongestion) \/ (fc_maxNack c <> -1 /\ fc_maxNack c < n')))).
Proof.
  intros Hp Hr. destruct f as [nn nt nc st er ph]. cbn in Hp. subst ph.
  unfold f_isRunning in Hr. cbn in Hr. destruct st, er; try discriminate. cbn zeta.
  unfold f_step, f_handleNack, f_setPhase, f_isRunning, MAX_RETRIES_INFINITE.
  cbn [f_phase f_nNacks f_nTimeouts f_nCong f_stopped f_hasError negb andb].
  destruct (Z.eqb_spec (fc_maxNack c) (-1)) as [E|E]; cbn [f_nNacks f_nTimeouts].
  - rewrite orb_true_r. unfold prepend.
    destruct rr; cbn [fst snd app f_expressInterest f_congestion f_setError];
      try (eexists; split; [|split; [|right; right; eexists; split; [reflexivity|cbn; repeat split; left; split; discriminate]]]; reflexivity).
    + unfold f_congestion. cbn [f_nCong]. destruct (_ <? _);
      (eexists; split; [|split; [|right; left; eexists; split; [reflexivity|cbn; auto]]]; reflexivity).
    + eexists; split; [|split; [|left; split; [reflexivity|cbn; auto]]]; reflexivity.
  - rewrite orb_false_r. destruct (Z.leb_spec (nn + 1) (fc_maxNack c)) as [L|L]; unfold prepend.
    + destruct rr; cbn [fst snd app f_expressInterest f_congestion f_setError];
        try (eexists; split; [|split; [|right; right; eexists; split; [reflexivity|cbn; repeat split; left; split; discriminate]]]; reflexivity).
      * unfold f_congestion. cbn [f_nCong]. destruct (_ <? _);
        (eexists; split; [|split; [|right; left; eexists; split; [reflexivity|cbn; auto]]]; reflexivity).
      * eexists; split; [|split; [|left; split; [reflexivity|cbn; auto]]]; reflexivity.
    + cbn [fst snd app f_setError].
      eexists; split; [|split; [|right; right; eexists; split; [reflexivity|cbn; repeat split; right; split; [exact E|lia]]]]; reflexivity.
Qed.

Lemma f_timeout_cases c f :
  f_phase f = PhInterest -> f_isRunning f = true ->
  let n' := if Z.eqb (fc_maxTimeout c) (-1) then f_nTimeouts f else f_nTimeouts f + 1 in
  exists f', f_nNacks f' = f_nNacks f /\ f_nTimeouts f' = n' /\
  ((f_step c f FeTimeout = (f', [FoGotTimeout; FoInterest]) /\ f_isRunning f' = true /\ f_phase f' = PhInterest) \/
   (exists k, f_step c f FeTimeout = (f', [FoGotTimeout; FoFailCb k]) /\ f_hasError f' = true /\
              f_isRunning f' = false /\ f_phase f' = PhNone /\ fc_maxTimeout c <> -1 /\ fc_maxTimeout c < n')).
Proof.
  intros Hp Hr. destruct f as [nn nt nc st er ph]. cbn in Hp. subst ph.
  unfold f_isRunning in Hr. cbn in Hr. destruct st, er; try discriminate. cbn zeta.
  unfold f_step, f_handleTimeout, f_setPhase, f_isRunning, MAX_RETRIES_INFINITE.
  cbn [f_phase f_nNacks f_nTimeouts f_nCong f_stopped f_hasError negb andb].
  destruct (Z.eqb_spec (fc_maxTimeout c) (-1)) as [E|E]; cbn [f_nNacks f_nTimeouts].
  - rewrite orb_true_r. unfold prepend. cbn [fst snd app f_expressInterest].
    eexists; split; [|split; [|left; split; [reflexivity|cbn; auto]]]; reflexivity.
  - rewrite orb_false_r. destruct (Z.leb_spec (nt + 1) (fc_maxTimeout c)) as [L|L]; unfold prepend; cbn [fst snd app f_expressInterest f_setError].
    + eexists; split; [|split; [|left; split; [reflexivity|cbn; auto]]]; reflexivity.
    + eexists; split; [|split; [|right; eexists; split; [reflexivity|cbn; repeat split; [exact E|lia]]]]; reflexivity.
Qed.

Lemma f_data_case c f :
  f_phase f = PhInterest -> f_isRunning f = true ->
  exists f', f_step c f FeData = (f', [FoGotData; FoDataCb]) /\
    f_isRunning f' = false /\ f_hasError f' = false /\ f_phase f' = PhNone.
Proof.
  intros Hp Hr. destruct f as [nn nt nc st er ph]. cbn in Hp. subst ph.
  unfold f_isRunning in Hr. cbn in Hr. destruct st, er; try discriminate.
  eexists. split; [reflexivity|]. cbn. auto.
Qed.

Lemma f_timer_case c f :
  f_phase f = PhTimer -> f_isRunning f = true ->
  exists f', f_step c f FeTimer = (f', [FoInterest]) /\ f_isRunning f' = true /\ f_phase f' = PhInterest /\
    f_nNacks f' = f_nNacks f /\ f_nTimeouts f' = f_nTimeouts f.
Proof.
  intros Hp Hr. destruct f as [nn nt nc st er ph]. cbn in Hp. subst ph.
  unfold f_isRunning in Hr. cbn in Hr. destruct st, er; try discriminate.
  eexists. split; [reflexivity|]. cbn. auto.
Qed.

(** * Abandoning *)
Lemma abandoned_ab x : Forall (fun o => is_ab o = true) (abandoned x).
Proof. destruct x as [[f k]|]; cbn; [destruct (f_isRunning f)|]; repeat constructor. Qed.

Lemma flat_ab (g : slot -> list pobs) l :
  (forall x, Forall (fun o => is_ab o = true) (g x)) -> Forall (fun o => is_ab o = true) (flat_map g l).
Proof. intros H. induction l; cbn; [constructor|]. apply Forall_app. auto. Qed.

Lemma learn_ab n l : Forall (fun o => is_ab o = true) (snd (fst (x_learn n l))).
Proof.
  induction l as [|[[f k]|] l IH]; cbn; [constructor| |].
  - destruct (N.ltb n k).
    + destruct (x_learn n l) as [[? ?] ?]. cbn [fst snd]. apply Forall_app. split; [apply (abandoned_ab (Some (f, k)))|exact IH].
    + destruct (f_hasError f); [constructor|]. destruct (x_learn n l) as [[? ?] ?]. exact IH.
  - destruct (x_learn n l) as [[? ?] ?]. exact IH.
Qed.

Lemma forall_rev {A} (P : A -> Prop) l : Forall P l -> Forall P (rev l).
Proof. intros H. apply Forall_forall. intros x Hx. apply in_rev in Hx. revert x Hx. now apply Forall_forall. Qed.

Section Inv.
Variable C : xconfig.
Notation r := (xc_maxRetries C).
Notation hasFbi s := (b_hasFbi (x_b s)).
Notation last s := (b_last (x_b s)).
Notation stopping s := (b_stopping (x_b s)).
Notation slotAt s j := (nth_error (x_slots s) j).

Lemma xtr_ok_ab l t : Forall (fun o => is_ab o = true) l -> xtr_ok C t -> xtr_ok C (l ++ t).
Proof.
  induction 1 as [|o l Ho Hl IH]; cbn; [auto|]. intros H. split; [|auto].
  destruct o; try discriminate. exact I.
Qed.

Lemma xg_fail_ab l t rs : Forall (fun o => is_ab o = true) l -> XG C t (OFail rs) -> XG C (l ++ t) (OFail rs).
Proof.
  intros Hl. destruct (abandons_neutral l t Hl) as (H1 & H2 & H3 & H4 & _). cbn [XG].
  rewrite H2, H3, H4. intros [He HG]. split; [exact He|].
  destruct rs; auto.
  - destruct HG as [(k & Hk) Hn]. split; [exists k; now apply lostx_app|exact Hn].
  - destruct HG as (Ha & Hb). split; [now apply lostx_app|exact Hb].
  - destruct HG as (Ha & Hb). split; [now apply lostx_app|exact Hb].
Qed.

(** the state with other slots and some abandonments *)
Definition withSlots (l : list slot) (o : list pobs) (s : xstate) : xstate :=
  XState (x_b s) l (x_hasFailure s) (x_crashed s) (o ++ x_tr s).

Lemma xa_withSlots l o s :
  XA C s -> stopping s = false -> Forall (fun o => is_ab o = true) o ->
  (forall j f k, slotAt s j = Some (Some (f, k)) -> f_isRunning f = true ->
     In (OAbandon k) o \/ exists f', nth_error l j = Some (Some (f', k)) /\ f_isRunning f' = true) ->
  XA C (withSlots l o s).
Proof.
  intros [] Hs Ho Hl. destruct (abandons_neutral o (x_tr s) Ho) as (H1 & H2 & H3 & H4 & _ & _ & _ & H8 & _).
  constructor; cbn [withSlots x_tr x_b x_slots x_hasFailure]; rewrite ?H1, ?H2, ?H3, ?H4; auto.
  - now apply xtr_ok_ab.
  - intros Hf. destruct (X_hf Hf) as (k & Hk). exists k. now apply lostx_app.
  - intros k Hk. apply H8 in Hk. destruct Hk as [Hk Hn].
    destruct (X_aw k Hk) as (j & f & Hj & Hf). destruct (Hl j f k Hj Hf) as [?|(f' & ? & ?)]; [contradiction|]. eauto.
  - congruence.
Qed.

(** * Stopping *)
Lemma xi_onFailure rs s :
  XA C s -> stopping s = false -> XG C (x_tr s) (OFail rs) ->
  XJ C (x_onFailure rs s) /\ stopping (x_onFailure rs s) = true /\
  x_crashed (x_onFailure rs s) = x_crashed s.
Proof.
  intros HA Hs HG. unfold x_onFailure, x_cancel. rewrite Hs. cbn.
  split; [|split; reflexivity].
  assert (Hab : Forall (fun o => is_ab o = true) (rev (flat_map abandoned (x_slots s)))).
  { apply forall_rev, flat_ab, abandoned_ab. }
  destruct (abandons_neutral _ (x_tr s) Hab) as (H1 & H2 & H3 & H4 & _ & _ & _ & H8 & _).
  destruct HA.
  split; [split|]; cbn; try discriminate.
  constructor; cbn -[xtr_ok]; rewrite ?H1, ?H2, ?H3; auto.
  - rewrite X_known. destruct (hasFbi s); reflexivity.
  - split; [now apply xg_fail_ab|now apply xtr_ok_ab].
  - intros Hf. destruct (X_hf Hf) as (k & Hk). exists k. now apply lostx_cons, lostx_app.
  - intros k Hk. apply H8 in Hk. destruct Hk as [Hk Hn]. exfalso. apply Hn.
    destruct (X_aw k Hk) as (j & f & Hj & Hf). rewrite <- in_rev. apply in_flat_map.
    exists (Some (f, k)). split; [eapply nth_error_In; eauto|]. cbn. rewrite Hf. now left.
Qed.

Lemma xj_cancel s : XJ C s -> XJ C (x_cancel (x_emit OGotCancel s)).
Proof.
  intros [[HA HR] _]. unfold x_cancel. cbn [x_emit x_b].
  destruct (stopping s) eqn:Hs.
  - destruct HA. split; [split|]; cbn; try congruence.
    constructor; cbn; auto.
    + rewrite X_known. destruct (hasFbi s); reflexivity.
    + intros Hf. destruct (X_hf Hf) as (k & Hk). exists k. now apply lostx_cons.
  - assert (Hab : Forall (fun o => is_ab o = true) (rev (flat_map abandoned (x_slots s)))).
    { apply forall_rev, flat_ab, abandoned_ab. }
    destruct (abandons_neutral _ (OGotCancel :: x_tr s) Hab) as (H1 & H2 & H3 & H4 & _ & _ & _ & H8 & _).
    destruct HA. split; [split|]; cbn; try congruence.
    constructor; cbn; rewrite ?H1, ?H2, ?H3, ?H4; auto.
    + cbn. rewrite X_known. destruct (hasFbi s); reflexivity.
    + apply xtr_ok_ab; [exact Hab|]. cbn. auto.
    + intros Hf. destruct (X_hf Hf) as (k & Hk). exists k. now apply lostx_app, lostx_cons.
    + intros k Hk. apply H8 in Hk. destruct Hk as [Hk Hn]. exfalso. apply Hn. cbn in Hk.
      destruct (X_aw k Hk) as (j & f & Hj & Hf). rewrite <- in_rev. apply in_flat_map.
      exists (Some (f, k)). split; [eapply nth_error_In; eauto|]. cbn. rewrite Hf. now left.
Qed.

(** * Counting *)
Lemma fewer (l : list N) (slots : list slot) i :
  NoDup l -> (i < length slots)%nat ->
  (forall k, In k l -> exists j f, nth_error slots j = Some (Some (f, k)) /\ j <> i) ->
  (length l < length slots)%nat.
Proof.
  intros Hnd Hi Hl.
  set (g := fun j => match nth_error slots j with Some (Some (_, k)) => k | _ => 0%N end).
  assert (H1 : incl l (map g (remove Nat.eq_dec i (seq 0 (length slots))))).
  { intros k Hk. destruct (Hl k Hk) as (j & f & Hj & Hne). apply in_map_iff. exists j.
    split; [unfold g; now rewrite Hj|]. apply in_in_remove; [exact Hne|]. apply in_seq.
    split; [lia|]. cbn. apply nth_error_Some. congruence. }
  pose proof (NoDup_incl_length Hnd H1) as H2. rewrite map_length in H2.
  assert (H3 : (length (remove Nat.eq_dec i (seq 0 (length slots))) < length (seq 0 (length slots)))%nat).
  { apply remove_length_lt. apply in_seq. lia. }
  rewrite seq_length in H3. lia.
Qed.

Lemma all_delivered (n : N) (l : list N) :
  (forall k, (k <= n)%N -> In k l) -> (N.to_nat n < length l)%nat.
Proof.
  intros H.
  assert (Hi : incl (upto (S (N.to_nat n))) l).
  { intros k Hk. apply in_upto in Hk. apply H. lia. }
  assert (Hnd : NoDup (upto (S (N.to_nat n)))).
  { unfold upto. apply FinFun.Injective_map_NoDup; [intros a b; lia|apply seq_NoDup]. }
  pose proof (NoDup_incl_length Hnd Hi) as Hl. rewrite length_upto in Hl. lia.
Qed.

Lemma missing (n : N) (l : list N) :
  (length l <= N.to_nat n)%nat -> exists k, (k <= n)%N /\ ~ In k l.
Proof.
  intros H. destruct (existsb (fun k => negb (existsb (N.eqb k) l)) (upto (S (N.to_nat n)))) eqn:E.
  - apply existsb_exists in E. destruct E as (k & Hk & Hn). apply in_upto in Hk. exists k.
    split; [lia|]. intros Hin. apply negb_true_iff in Hn. apply not_true_iff_false in Hn. apply Hn.
    apply existsb_exists. exists k. split; [exact Hin|apply N.eqb_refl].
  - exfalso. enough (N.to_nat n < length l)%nat by lia. apply all_delivered. intros k Hk.
    apply not_true_iff_false in E. destruct (in_dec N.eq_dec k l) as [Hi|Hn]; [exact Hi|].
    exfalso. apply E. apply existsb_exists. exists k. split; [apply in_upto; lia|].
    apply negb_true_iff. apply not_true_iff_false. intros Hx. apply existsb_exists in Hx.
    destruct Hx as (y & Hy & He). apply N.eqb_eq in He. subst. contradiction.
Qed.

Lemma allReceived_false b :
  b_allReceived b = false -> b_hasFbi b = true -> 0 <= b_nReceived b -> b_nReceived b <= Z.of_N (b_last b).
Proof. unfold b_allReceived. intros H Hf Hn. rewrite Hf in H. lia. Qed.

(** * Changes that concern one segment only *)
Definition same_for (k : N) (t t' : list pobs) : Prop :=
  (nf t <= nf t')%N /\ (In k (dl t') <-> In k (dl t)) /\
  (In k (fl t') <-> In k (fl t)) /\ (In k (aw t') <-> In k (aw t)) /\
  count (nack_for k) t' = count (nack_for k) t /\ count (expiry_for k) t' = count (expiry_for k) t /\
  (lostx C t k -> lostx C t' k).

Lemma slot_ok_same fb s s' f k :
  same_for k (x_tr s) (x_tr s') -> (x_hasFailure s = true -> x_hasFailure s' = true) ->
  (forall j f0 k0, slotAt s j = Some (Some (f0, k0)) -> f_hasError f0 = true -> slotAt s' j = Some (Some (f0, k0))) ->
  slot_ok C fb s f k -> slot_ok C fb s' f k.
Proof.
  intros (H1 & H2 & H3 & H4 & H5 & H6 & H7) Hf He (A & B & D & E & F). unfold slot_ok.
  rewrite H5, H6. split; [lia|]. split; [destruct (f_phase f); rewrite ?H3, ?H4; exact B|].
  rewrite !H2. split; [exact D|]. split.
  - intros Herr. destruct (E Herr) as (E1 & E2 & E3). repeat split; auto. destruct fb; auto.
  - intros Hr Herr Hd. specialize (F Hr Herr Hd). destruct fb; [exact F|].
    destruct F as (j & f' & k' & F1 & F2 & F3). exists j, f', k'. auto.
Qed.

Lemma xr_update fb i f k f' s s' :
  XR C fb s -> slotAt s i = Some (Some (f, k)) -> f_hasError f = false ->
  x_slots s' = upd i (Some (f', k)) (x_slots s) ->
  b_next (x_b s') = b_next (x_b s) -> nf (x_tr s') = nf (x_tr s) ->
  (x_hasFailure s = true -> x_hasFailure s' = true) ->
  (forall x, In x (dl (x_tr s)) -> In x (dl (x_tr s'))) ->
  (forall k', k' <> k -> same_for k' (x_tr s) (x_tr s')) ->
  slot_ok C fb s' f' k ->
  XR C fb s'.
Proof.
  intros [] Hi Herr Hsl Hb Hn Hf Hd Hsame Hok.
  assert (Hslot : forall j, slotAt s' j = if Nat.eqb j i then Some (Some (f', k)) else slotAt s j).
  { intros j. rewrite Hsl, nth_upd. destruct (Nat.eqb_spec j i) as [->|]; [now rewrite Hi|reflexivity]. }
  constructor.
  - now rewrite Hsl, length_upd.
  - intros a b fa fb0 ka. rewrite !Hslot. destruct (Nat.eqb_spec a i) as [->|Ha], (Nat.eqb_spec b i) as [->|Hb']; auto.
    + intros [= <- <-] H. symmetry. eapply Y_inj; eauto.
    + intros H [= <- <-]. eapply Y_inj; eauto.
    + intros. eapply Y_inj; eauto.
  - intros j fj kj. rewrite Hslot. destruct (Nat.eqb_spec j i) as [->|Hj].
    + intros [= <- <-]. exact Hok.
    + intros H. assert (Hne : kj <> k). { intros ->. apply Hj. eapply Y_inj; eauto. }
      eapply slot_ok_same; eauto.
      intros j0 f0 k0 H0 He0. rewrite Hslot. destruct (Nat.eqb_spec j0 i) as [->|]; [|exact H0].
      rewrite Hi in H0. injection H0 as <- <-. congruence.
  - intros k0. rewrite Hn. intros H. destruct (Y_cov k0 H) as [H1|(j & f1 & H1)]; [left; auto|right].
    destruct (Nat.eq_dec j i) as [->|Hj].
    + exists i, f'. rewrite Hslot, Nat.eqb_refl. rewrite Hi in H1. now injection H1 as _ <-.
    + exists j, f1. rewrite Hslot. destruct (Nat.eqb_spec j i); [contradiction|exact H1].
  - now rewrite Hn, Hb.
Qed.
End Inv.
