(** From the progress invariant to statements about histories; runs in which the network
    falls silent. *)
From Verif Require Import Base BaseFacts PipelineBase PipelineSpec ProgressSpec FetcherModel AdaptiveModel AdaptiveProofs.
From Verif Require Import AdaptiveInv AdaptiveInv2 AdaptiveFlight AdaptiveWindow AdaptiveTheorems AdaptiveProgress.

Local Arguments Z.of_nat : simpl never.

(** * Counting *)
Definition is_rto (o : pobs) : bool := match o with ORto _ => true | _ => false end.

Lemma length_remove_le k l : (length (remove N.eq_dec k l) <= length l)%nat.
Proof. induction l as [|x l IH]; cbn; [lia|]. destruct (N.eq_dec k x); cbn; lia. Qed.

Lemma rto_bound w0 t : sends_ok w0 t -> count is_rto t + Z.of_nat (length (flset t)) <= count is_int t.
Proof.
  induction t as [|o t IH]; cbn [sends_ok]; [cbn; unfold count; cbn; lia|]. intros [H1 H2]. specialize (IH H2).
  rewrite !count_cons. cbn [flset].
  pose proof (fun k => length_remove_le k (flset t)) as Hl.
  destruct o; cbn [is_rto is_int fl_step]; try lia; try (specialize (Hl seg); lia).
  - destruct r; try lia; specialize (Hl seg); lia.
  - cbn [length]. specialize (Hl seg). lia.
  - rewrite length_remove by apply flset_nodup. unfold in_fl. destruct (in_dec N.eq_dec seg (flset t)); [lia|contradiction].
Qed.

Fixpoint crsum (n : nat) (t : list pobs) : Z :=
  match n with O => 0 | S n => crsum n t + cr (N.of_nat n) t end.
Lemma crsum_other n t o : (forall k, (k < N.of_nat n)%N -> cr k (o :: t) = cr k t) -> crsum n (o :: t) = crsum n t.
Proof.
  induction n as [|n IH]; intros H; cbn [crsum]; [reflexivity|].
  rewrite IH by (intros k Hk; apply H; lia). rewrite H by lia. reflexivity.
Qed.
Lemma cr_retx k seg t : cr k (OInterest seg true :: t) = cr k t + (if N.eqb k seg then 1 else 0).
Proof. cbn. destruct (N.eqb_spec k seg), (N.eqb_spec seg k); subst; try congruence; lia. Qed.
Lemma crsum_retx n t seg : (seg < N.of_nat n)%N -> crsum n (OInterest seg true :: t) = crsum n t + 1.
Proof.
  induction n as [|n IH]; intros H; cbn [crsum]; [lia|]. rewrite cr_retx.
  destruct (N.eqb_spec (N.of_nat n) seg) as [<-|Hne].
  - rewrite crsum_other; [lia|]. intros k Hk. rewrite cr_retx. destruct (N.eqb_spec k (N.of_nat n)); lia.
  - rewrite IH by lia. lia.
Qed.

Lemma retx_sum C n : forall t, tr_ok C t -> (nf t <= N.of_nat n)%N -> count is_retx t = crsum n t.
Proof.
  induction t as [|o t IH]; cbn [tr_ok].
  - intros _ _. clear. unfold count. cbn. induction n; cbn [crsum]; [reflexivity|]. rewrite <- IHn. reflexivity.
  - intros [HG Hok] Hn. rewrite count_cons.
    destruct o; try (rewrite IH by (auto; cbn in Hn; lia); rewrite crsum_other by reflexivity; cbn; lia).
    destruct retx; cbn [is_retx].
    + cbn [G] in HG. destruct HG as (_ & _ & Hlt & _). cbn [nf] in Hn.
      rewrite crsum_retx by lia. rewrite IH by auto. lia.
    + cbn [nf] in Hn. rewrite IH by (auto; lia). rewrite crsum_other by reflexivity. lia.
Qed.

Lemma crsum_le n t b : (forall k, cr k t <= b) -> crsum n t <= Z.of_nat n * b.
Proof. intros H. induction n as [|n IH]; cbn [crsum]; [lia|]. specialize (H (N.of_nat n)). lia. Qed.

Lemma int_split t : count is_int t = Z.of_N (nf t) + count is_retx t.
Proof.
  induction t as [|o t IH]; [reflexivity|]. rewrite !count_cons. destruct o; cbn [is_int is_retx nf]; try lia.
  destruct retx; lia.
Qed.

(** once the final segment is known, few first requests can follow *)
Lemma nf_bound C n l t : tr_ok C (l ++ t) -> known t = Some n -> (nf (l ++ t) <= N.max (nf t) (n + 1))%N.
Proof.
  intros Hok Hk. induction l as [|o l IH]; cbn [app]; [lia|]. cbn [app tr_ok] in Hok. destruct Hok as [HG Hok].
  specialize (IH Hok). destruct o; auto. destruct retx; [exact IH|].
  cbn [nf]. cbn [G] in HG. destruct HG as (_ & Hn & ->). specialize (Hn n).
  rewrite known_app, Hk in Hn. specialize (Hn eq_refl). lia.
Qed.

Section Live.
Variable C : aconfig.
Context {W R : Type}.
Variable P : policy W R.
Notation st := (@astate W R).
Implicit Types s : st.
Notation r := (c_maxRetries C).
Notation hasFbi s := (b_hasFbi (a_b s)).
Notation last s := (b_last (a_b s)).
Notation stopping s := (b_stopping (a_b s)).
Notation allrec s := (b_allReceived (a_b s)).
Notation w0 := (p_floor P (p_initW P)).

(** * A pipeline that is on track is busy *)
Lemma on_track_state es :
  let s := a_run P C es in let h := a_history s in
  on_track r h -> existsb is_over h = false -> ~ In OThrow h ->
  a_crashed s = false /\ stopping s = false /\ a_hasFailure s = false.
Proof.
  cbv zeta. set (s := a_run P C es). intros Ht Ho Hth.
  destruct (inv_run C P es) as [HA HR]. fold s in HA, HR.
  assert (Hc : a_crashed s = false).
  { destruct (a_crashed s) eqn:E; [|reflexivity]. exfalso. apply Hth. apply in_rev. unfold a_history. rewrite rev_involutive.
    now apply crash_thrown. }
  assert (Hs : stopping s = false).
  { rewrite <- (A_end _ _ HA). unfold a_history in Ho. rewrite <- ended_rev, rev_involutive in Ho. exact Ho. }
  split; [exact Hc|]. split; [exact Hs|]. specialize (HR Hc Hs).
  destruct (hasFbi s) eqn:Ef; [now apply (R_fbif _ _ HR)|].
  destruct (a_hasFailure s) eqn:EF; [exfalso|reflexivity].
  destruct (R_fail _ _ HR Ef EF) as (_ & Hcause & _).
  destruct Ht as [Ht|[H1 H2]].
  - apply Ht. unfold a_history. rewrite <- known_rev, rev_involutive, (A_known _ _ HA), Ef. reflexivity.
  - pose proof (cause_rev C (a_history s) (a_failedSeg s) (a_failReason s)) as HC.
    unfold a_history at 1 in HC. rewrite rev_involutive in HC. specialize (HC Hcause).
    destruct (a_failReason s); try contradiction; destruct HC as [_ HC]; [eapply H2|eapply H1]; eauto.
Qed.

Lemma open_window_pos s : open_window w0 (a_history s) -> 1 <= w0 /\ forall w, In (OWindow w) (a_tr s) -> 1 <= w.
Proof. intros [H1 H2]. split; [exact H1|]. intros w Hw. apply H2. unfold a_history. now apply -> in_rev. Qed.
Lemma honest_tr n s : honest n (a_history s) ->
  forall k d, In (OGotData k d) (a_tr s) -> (k <= n)%N /\ (d_fbi d = FbiAbsent \/ d_fbi d = FbiSegment n).
Proof. intros H k d Hin. apply H. unfold a_history. now apply -> in_rev. Qed.

Lemma on_track_busy n es :
  let s := a_run P C es in let h := a_history s in
  honest n h -> open_window w0 h -> on_track r h -> existsb is_over h = false -> ~ In OThrow h ->
  a_crashed s = false /\ stopping s = false /\ a_timer s = true /\ Busy s.
Proof.
  cbv zeta. intros Hh Hw Ht Ho Hth. destruct (on_track_state es Ht Ho Hth) as (Hc & Hs & Hf).
  destruct (open_window_pos _ Hw) as [Hw0 Hw1].
  pose proof (prog_run C P n es Hw0 Hw1 (honest_tr n _ Hh) Hc Hs) as [H1 H2].
  destruct (H2 Hf) as [_ H3]. auto.
Qed.

Lemma out_flk es k :
  let s := a_run P C es in
  a_crashed s = false -> stopping s = false -> In k (outstanding (a_history s)) <-> flk k (a_segs s) = true.
Proof.
  cbv zeta. intros Hc Hs. destruct (fi_run C P es) as [_ HF]. specialize (HF Hc Hs).
  rewrite <- (F_in _ _ HF k). unfold a_history. rewrite <- flset_rev, rev_involutive. reflexivity.
Qed.

Theorem never_hangs n es :
  let h := a_history (a_run P C es) in
  honest n h -> open_window w0 h -> on_track r h -> existsb is_over h = false -> ~ In OThrow h ->
  outstanding h <> [].
Proof.
  cbv zeta. intros Hh Hw Ht Ho Hth. destruct (on_track_busy n es Hh Hw Ht Ho Hth) as (Hc & Hs & _ & (k & Hk)).
  apply (out_flk es k Hc Hs) in Hk. intros E. rewrite E in Hk. contradiction.
Qed.

(** * The retransmission timer *)
Definition expired s k : Prop :=
  exists i, kget k (a_segs s) = Some i /\ si_state i <> InRetxQueue /\ si_rto i < a_now s - si_timeSent i.

Definition newrto k s s' : Prop := ext (ORto k :: a_tr s) (a_tr s') \/ exists l, a_tr s' = l ++ a_tr s /\ In (ORto k) l.
Lemma newrto_in k s s' : newrto k s s' -> exists l, a_tr s' = l ++ a_tr s /\ In (ORto k) l.
Proof.
  intros [[l E]|H]; [|exact H]. exists (l ++ [ORto k]). rewrite E, <- app_assoc. split; [reflexivity|].
  apply in_or_app. right. now left.
Qed.
Lemma newrto_ext k s s1 s2 : newrto k s s1 -> ext (a_tr s1) (a_tr s2) -> newrto k s s2.
Proof.
  intros H [l2 E2]. destruct (newrto_in _ _ _ H) as (l & E & Hin). right. exists (l2 ++ l).
  rewrite E2, E, app_assoc. split; [reflexivity|]. apply in_or_app. now right.
Qed.
Lemma ext_newrto k s s1 s2 : ext (a_tr s) (a_tr s1) -> newrto k s1 s2 -> newrto k s s2.
Proof.
  intros [l E] H. destruct (newrto_in _ _ _ H) as (l2 & E2 & Hin). right. exists (l2 ++ l).
  rewrite E2, E, app_assoc. split; [reflexivity|]. apply in_or_app. now left.
Qed.

Lemma checkRto1_expired s has high k : expired s k ->
  newrto k s (fst (fst (checkRto1 (s, has, high) k))) /\ snd (fst (checkRto1 (s, has, high) k)) = true.
Proof.
  intros (i & Hi & Hst & Ht). unfold checkRto1. rewrite Hi.
  replace (negb (state_eqb (si_state i) InRetxQueue)) with true by (destruct (si_state i); cbn; congruence).
  replace (si_rto i <? a_now s - si_timeSent i) with true by lia. cbn [andb fst snd]. split; [|reflexivity].
  match goal with |- context [enqueueForRetransmission k ?x] => destruct (mf_enqueue k x) as [(E & _) _] end.
  left. exact E.
Qed.
Lemma checkRto1_other s has high k k' : k' <> k -> expired s k -> expired (fst (fst (checkRto1 (s, has, high) k'))) k.
Proof.
  intros Hne (i & Hi & Hst & Ht). unfold checkRto1. destruct (kget k' (a_segs s)) as [j|] eqn:Ej; [|exists i; auto].
  destruct (_ && _); [|exists i; auto]. cbn [fst].
  unfold enqueueForRetransmission. cbn [emit set_tr set_nTimeouts a_nInFlight].
  destruct (0 <? a_nInFlight s); cbn; rewrite Ej; exists i; cbn; rewrite kget_kset; destruct (N.eqb_spec k k'); try congruence; auto.
Qed.
Lemma fold_expired k l : forall s has high, expired s k -> In k l ->
  newrto k s (fst (fst (fold_left checkRto1 l (s, has, high)))) /\
  snd (fst (fold_left checkRto1 l (s, has, high))) = true.
Proof.
  induction l as [|k' l IH]; intros s has high He Hin; [contradiction|]. cbn [fold_left].
  destruct (N.eq_dec k' k) as [->|Hne].
  - destruct (checkRto1_expired s has high k He) as [H1 H2].
    pose proof (mf_checkRto_fold l (checkRto1 (s, has, high) k)) as [(E & _) _].
    split; [now apply (newrto_ext _ _ _ _ H1)|].
    destruct (checkRto1 (s, has, high) k) as [[s1 has1] high1]. cbn in H2. now apply checkRto_fold_has.
  - destruct Hin as [->|Hin]; [congruence|].
    pose proof (checkRto1_other s has high k k' Hne He) as He'.
    pose proof (mf_checkRto1 s has high k') as [(E & _) _].
    destruct (checkRto1 (s, has, high) k') as [[s1 has1] high1]. cbn [fst] in *.
    destruct (IH s1 has1 high1 He' Hin) as [H1 H2]. split; [|exact H2]. eapply ext_newrto; eauto.
Qed.

Lemma in_visit order ks k : In k ks -> In k (visit_order order ks).
Proof.
  intros H. unfold visit_order. set (ord := nodup _ _). apply in_or_app.
  destruct (in_dec N.eq_dec k ord) as [Hi|Hi]; [now left|right]. apply filter_In. split; [exact H|].
  destruct (in_dec N.eq_dec k ord); [contradiction|reflexivity].
Qed.

Lemma expired_keys s k : expired s k -> In k (keys (a_segs s)).
Proof. intros (i & Hi & _). apply kmem_keys, kmem_true. eauto. Qed.

Lemma checkRto_fires order s k : stopping s = false -> expired s k -> newrto k s (checkRto P C order s).
Proof.
  intros Hs He. unfold checkRto, isStopping. rewrite Hs.
  destruct (fold_expired k (visit_order order (keys (a_segs s))) s false 0%N He (in_visit _ _ _ (expired_keys _ _ He))) as [H1 H2].
  destruct (fold_left checkRto1 _ _) as [[s1 has1] high1]. cbn [fst snd] in *. subst has1.
  destruct (a_crashed s1); [exact H1|]. eapply newrto_ext; [exact H1|]. cbn [set_timer a_tr].
  eapply ext_tran; [apply mf_recordTimeout|]. match goal with |- ext (a_tr ?x) _ => apply (mf_schedule C P x) end.
Qed.

(** Every outstanding Interest has a deadline. *)
Fixpoint deadline (m : list (N * seginfo)) : Z :=
  match m with [] => 0 | (_, i) :: m => Z.max (si_rto i + si_timeSent i) (deadline m) end.
Lemma deadline_get k i m : kget k m = Some i -> si_rto i + si_timeSent i <= deadline m.
Proof.
  induction m as [|[k' j] m IH]; cbn; [discriminate|]. destruct (N.eqb k k'); [intros [= ->]; lia|].
  intros H. specialize (IH H). lia.
Qed.
Lemma flk_expired s k : flk k (a_segs s) = true -> deadline (a_segs s) < a_now s -> expired s k.
Proof.
  unfold flk. intros Hk Hd. destruct (kget k (a_segs s)) as [i|] eqn:Ei; [|discriminate]. exists i.
  split; [exact Ei|]. pose proof (deadline_get _ _ _ Ei). split; [destruct (si_state i); cbn in Hk; congruence|lia].
Qed.

(** If nothing arrives, every outstanding Interest eventually times out. *)
Theorem timeout_follows n es :
  let h := a_history (a_run P C es) in
  honest n h -> open_window w0 h -> on_track r h -> existsb is_over h = false -> ~ In OThrow h ->
  exists T, forall dt order, (T <= dt)%N -> exists h',
    a_history (a_run P C (es ++ [AeTick dt; AeRto order])) = h ++ h' /\
    forall k, In k (outstanding h) -> In (ORto k) h'.
Proof.
  cbv zeta. intros Hh Hw Ht Ho Hth. destruct (on_track_busy n es Hh Hw Ht Ho Hth) as (Hc & Hs & Htm & Hb).
  pose proof (fun k => out_flk es k Hc Hs) as Hout. cbv zeta in Hout. set (s := a_run P C es) in *.
  exists (Z.to_N (deadline (a_segs s) - a_now s + 1)). intros dt order Hdt.
  set (s1 := set_timer false (set_now (a_now s + Z.of_N dt) s)).
  assert (E : a_run P C (es ++ [AeTick dt; AeRto order]) = checkRto P C order s1).
  { unfold a_run. rewrite fold_left_app. fold (a_run P C es). fold s. cbn [fold_left].
    unfold a_step at 2. rewrite Hc. unfold a_step. cbn [set_now a_crashed a_timer]. rewrite Hc, Htm. reflexivity. }
  rewrite E.
  assert (HN : forall k, In k (outstanding (a_history s)) -> newrto k s1 (checkRto P C order s1)).
  { intros k Hk. apply Hout in Hk. apply checkRto_fires; [exact Hs|]. apply flk_expired; [exact Hk|]. cbn. lia. }
  destruct Hb as (k0 & Hk0). apply Hout in Hk0. destruct (newrto_in _ _ _ (HN k0 Hk0)) as (l & El & _).
  exists (rev l). unfold a_history at 1. rewrite El, rev_app_distr. split; [reflexivity|].
  intros k Hk. destruct (newrto_in _ _ _ (HN k Hk)) as (l' & El' & Hin). apply in_rev. rewrite rev_involutive.
  rewrite El in El'. apply app_inv_tail in El'. now rewrite El'.
Qed.

(** * Silence *)
Definition nodata (o : pobs) : bool := match o with OGotData _ _ => false | _ => true end.
Definition sil s s' : Prop :=
  (exists l, a_tr s' = l ++ a_tr s /\ forallb nodata l = true) /\ a_crashed s' = a_crashed s /\
  (stopping s' = true -> stopping s = true \/ exists rs, In (OFail rs) (a_tr s')).
Lemma sil_refl s : sil s s.
Proof. split; [now exists []|]. auto. Qed.
Lemma sil_trans a b c : sil a b -> sil b c -> sil a c.
Proof.
  intros ((l1 & E1 & N1) & C1 & S1) ((l2 & E2 & N2) & C2 & S2). split; [|split; [congruence|]].
  - exists (l2 ++ l1). rewrite E2, E1, app_assoc, forallb_app, N1, N2. auto.
  - intros H. destruct (S2 H) as [H'|H']; [|auto]. destruct (S1 H') as [H''|(rs & H'')]; [auto|].
    right. exists rs. rewrite E2. apply in_or_app. now right.
Qed.
Lemma sil_emit o s s' : a_tr s' = o :: a_tr s -> nodata o = true -> stopping s' = stopping s -> a_crashed s' = a_crashed s -> sil s s'.
Proof. intros H2 H1 H3 H4. split; [exists [o]; cbn; rewrite H1; auto|]. split; [exact H4|]. rewrite H3. auto. Qed.
Lemma sil_same s s' : a_tr s' = a_tr s -> stopping s' = stopping s -> a_crashed s' = a_crashed s -> sil s s'.
Proof. intros H2 H3 H4. split; [exists []; auto|]. split; [exact H4|]. rewrite H3. auto. Qed.

Lemma sil_onFailure rs s : sil s (onFailure rs s).
Proof.
  unfold onFailure. destruct (isStopping s); [apply sil_refl|]. unfold cancel. destruct (isStopping s) eqn:E.
  - eapply sil_emit; reflexivity.
  - split; [exists [OFail rs]; auto|]. split; [reflexivity|]. intros _. right. exists rs. now left.
Qed.
Lemma sil_cancelGreater n s : sil s (cancelGreater n s).
Proof.
  split; [|split; [reflexivity|auto]]. unfold cancelGreater. cbn. eexists. split; [reflexivity|].
  apply forallb_forall. intros o Ho. apply in_map_iff in Ho. destruct Ho as (x & <- & _). reflexivity.
Qed.
Lemma sil_handleFail seg rs s : sil s (handleFail seg rs s).
Proof.
  unfold handleFail. destruct (isStopping s); [apply sil_refl|]. destruct (b_hasFbi (a_b s) && _); [apply sil_onFailure|].
  destruct (negb _); [|apply sil_refl]. cbv zeta. destruct (a_segs _) eqn:E.
  - eapply sil_trans; [|apply sil_onFailure]. eapply sil_emit; reflexivity.
  - match goal with |- sil _ (set_failReason _ (set_failedSeg _ (set_hasFailure _ (cancelGreater ?k ?x)))) =>
      eapply (sil_trans _ (cancelGreater k x)); [|apply sil_same; reflexivity];
      eapply (sil_trans _ x); [eapply sil_emit; reflexivity|apply sil_cancelGreater] end.
Qed.
Lemma sil_express seg retx s : sil s (express P seg retx s).
Proof. unfold express. destruct retx; eapply sil_emit; reflexivity. Qed.
Lemma sil_sendInterest seg retx s : sil s (sendInterest P C seg retx s).
Proof.
  unfold sendInterest. destruct (isStopping s); [apply sil_refl|]. destruct (_ && _); [apply sil_refl|].
  destruct (_ && _); [apply sil_refl|]. destruct retx; [|apply sil_express].
  destruct (kget seg (a_retxCount s)); cbv zeta; [destruct (_ && _)|].
  - eapply sil_trans; [|apply sil_handleFail]. apply sil_same; reflexivity.
  - eapply sil_trans; [|apply sil_express]. apply sil_same; reflexivity.
  - eapply sil_trans; [|apply sil_express]. apply sil_same; reflexivity.
Qed.
Lemma sil_dropSkipped q : forall s, sil s (dropSkipped q s).
Proof.
  induction q as [|k q IH]; intros s; cbn [dropSkipped]; [apply sil_same; reflexivity|].
  destruct (kmem k (a_segs s)); [apply sil_same; reflexivity|].
  eapply sil_trans; [|apply IH]. eapply sil_emit; reflexivity.
Qed.
Lemma sil_sendOne s : sil s (sendOne P C s).
Proof.
  unfold sendOne. cbv zeta. pose proof (sil_dropSkipped (a_retxq s) s) as H. set (s1 := dropSkipped _ s) in *.
  destruct (a_retxq s1); [destruct (b_getNext (a_b s1)) as [k b] eqn:E|].
  all: eapply sil_trans; [exact H|]; eapply sil_trans; [|apply sil_sendInterest]; apply sil_same; try reflexivity.
  unfold b_getNext in E. injection E as _ <-. reflexivity.
Qed.
Lemma sil_iter n : forall s, sil s (iter n (sendOne P C) s).
Proof. induction n as [|n IH]; intros s; cbn [iter]; [apply sil_refl|]. eapply sil_trans; [apply sil_sendOne|apply IH]. Qed.
Lemma sil_schedule s : sil s (schedulePackets P C s).
Proof.
  unfold schedulePackets. cbv zeta. eapply sil_trans; [|apply sil_iter].
  destruct (_ <? _); [eapply sil_emit; reflexivity|apply sil_refl].
Qed.
Lemma sil_recordTimeout seg s : sil s (recordTimeout P C seg s).
Proof.
  unfold recordTimeout. destruct (_ || _); [|apply sil_refl].
  split; [|split; [reflexivity|auto]]. eexists [_; _]. split; reflexivity.
Qed.
Lemma sil_checkRto1 s has high seg : sil s (fst (fst (checkRto1 (s, has, high) seg))).
Proof.
  unfold checkRto1. destruct (kget seg (a_segs s)) eqn:E; [|apply sil_refl]. destruct (_ && _); [|apply sil_refl].
  cbv zeta. cbn [fst]. unfold enqueueForRetransmission. cbn [emit set_tr set_nTimeouts a_nInFlight].
  destruct (0 <? a_nInFlight s); cbn; rewrite E; (split; [|split; [reflexivity|auto]]).
  - eexists [_]. split; reflexivity.
  - eexists [_; _]. split; reflexivity.
Qed.
Lemma sil_checkRto_fold l : forall acc, sil (fst (fst acc)) (fst (fst (fold_left checkRto1 l acc))).
Proof.
  induction l as [|k l IH]; intros [[s has] high]; cbn [fold_left]; [apply sil_refl|].
  eapply sil_trans; [apply sil_checkRto1|apply IH].
Qed.
Lemma sil_checkRto order s : sil s (checkRto P C order s).
Proof.
  unfold checkRto. destruct (isStopping s); [apply sil_refl|].
  pose proof (sil_checkRto_fold (visit_order order (keys (a_segs s))) (s, false, 0%N)) as H.
  destruct (fold_left _ _ _) as [[s1 has] high]. cbn [fst] in H. destruct (a_crashed s1); [exact H|].
  destruct has; [|eapply sil_trans; [exact H|apply sil_same; reflexivity]].
  eapply sil_trans; [exact H|]. eapply sil_trans; [apply (sil_recordTimeout high)|].
  eapply sil_trans; [apply sil_schedule|apply sil_same; reflexivity].
Qed.
Lemma sil_step s e : silent e -> sil s (a_step P C s e).
Proof.
  intros He. unfold a_step. destruct (a_crashed s) eqn:Ec; [apply sil_refl|]. destruct e; try contradiction.
  - destruct (a_timer s); [|apply sil_refl]. eapply sil_trans; [|apply sil_checkRto]. apply sil_same; reflexivity.
  - apply sil_same; reflexivity.
Qed.

Lemma sil_run es es' : Forall silent es' -> sil (a_run P C es) (a_run P C (es ++ es')).
Proof.
  intros H. unfold a_run. rewrite fold_left_app. generalize (fold_left (a_step P C) es (doRun P C (a_init P))) as s.
  induction H as [|e l He Hl IH]; intros s; cbn [fold_left]; [apply sil_refl|].
  eapply sil_trans; [exact (sil_step s e He)|apply IH].
Qed.

Definition ticks (e : aevent) : Z := match e with AeTick dt => Z.of_N dt | _ => 0 end.

(** a silent step either makes a timer expire or changes nothing but the clock *)
Lemma silent_quiet s e : silent e -> a_crashed s = false -> stopping s = false -> a_timer s = true ->
  (exists k, newrto k s (a_step P C s e)) \/
  a_step P C s e = set_now (a_now s + ticks e) s.
Proof.
  intros He Hc Hs Ht. unfold a_step. rewrite Hc. destruct e; try contradiction; [|right; reflexivity].
  rewrite Ht. cbn [ticks]. unfold checkRto, isStopping. cbn [set_timer a_b a_segs]. rewrite Hs.
  set (l := visit_order order (keys (a_segs s))).
  pose proof (checkRto_fold_none l (set_timer false s) 0%N) as Hn.
  assert (HF : snd (fst (fold_left checkRto1 l (set_timer false s, false, 0%N))) = true ->
               exists k, newrto k s (fst (fst (fold_left checkRto1 l (set_timer false s, false, 0%N))))).
  { clear. change (a_tr s) with (a_tr (set_timer false s)).
    assert (G : forall s0 : st, snd (fst (fold_left checkRto1 l (s0, false, 0%N))) = true ->
                exists k, newrto k s0 (fst (fst (fold_left checkRto1 l (s0, false, 0%N))))).
    { generalize 0%N. induction l as [|k l' IH]; intros h s0 H; cbn [fold_left] in *; [discriminate|].
      destruct (checkRto1 (s0, false, h) k) as [[s1 has1] h1] eqn:E.
      unfold checkRto1 in E. destruct (kget k (a_segs s0)) eqn:Eg.
      2:{ injection E as <- <- <-. now apply IH. }
      destruct (_ && _); [|injection E as <- <- <-; now apply IH].
      injection E as <- <- <-. exists k.
      pose proof (mf_checkRto_fold l' (enqueueForRetransmission k (emit (ORto k) (set_nTimeouts (a_nTimeouts s0 + 1) s0)), true, N.max h k)) as [(E & _) _].
      destruct (mf_enqueue k (emit (ORto k) (set_nTimeouts (a_nTimeouts s0 + 1) s0))) as [(E' & _) _].
      left. eapply ext_tran; [exact E'|exact E]. }
    intros H. destruct (G _ H) as (k & Hk). exists k. exact Hk. }
  destruct (fold_left checkRto1 l _) as [[s1 has1] high1]. cbn [fst snd] in *.
  destruct has1.
  - left. destruct (HF eq_refl) as (k & Hk). exists k. destruct (a_crashed s1); [exact Hk|].
    eapply newrto_ext; [exact Hk|]. cbn [set_timer a_tr].
    eapply ext_tran; [apply mf_recordTimeout|]. match goal with |- ext (a_tr ?x) _ => apply (mf_schedule C P x) end.
  - right. rewrite (Hn eq_refl). cbn [set_timer a_crashed]. rewrite Hc. destruct s; cbn in *. subst. unfold set_now, set_timer; cbn. f_equal. lia.
Qed.

Lemma newrto_count k s s' : newrto k s s' -> count is_rto (a_tr s) < count is_rto (a_tr s').
Proof.
  intros H. destruct (newrto_in _ _ _ H) as (l & -> & Hin). rewrite count_app.
  enough (0 < count is_rto l) by lia. clear - Hin. induction l as [|o l IH]; [contradiction|].
  rewrite count_cons. pose proof (count_nonneg is_rto l). destruct Hin as [->|Hin]; cbn [is_rto]; [lia|].
  specialize (IH Hin). destruct (is_rto o); lia.
Qed.
Lemma ext_count s s' : ext (a_tr s) (a_tr s') -> count is_rto (a_tr s) <= count is_rto (a_tr s').
Proof. intros [l ->]. rewrite count_app. pose proof (count_nonneg is_rto l). lia. Qed.
Lemma sil_ext s s' : sil s s' -> ext (a_tr s) (a_tr s').
Proof. intros ((l & E & _) & _). now exists l. Qed.

(** a silent stretch either makes a timer expire or changes nothing but the clock *)
Lemma silent_stretch l : Forall silent l -> forall s, a_crashed s = false -> stopping s = false -> a_timer s = true ->
  count is_rto (a_tr s) < count is_rto (a_tr (fold_left (a_step P C) l s)) \/
  fold_left (a_step P C) l s = set_now (a_now s + fold_right Z.add 0 (map ticks l)) s.
Proof.
  induction 1 as [|e l He Hl IH]; intros s Hc Hs Ht; cbn [fold_left map fold_right].
  - right. destruct s; unfold set_now; cbn. f_equal. lia.
  - destruct (silent_quiet s e He Hc Hs Ht) as [(k & Hk)|E].
    + left. eapply Z.lt_le_trans; [apply (newrto_count _ _ _ Hk)|]. apply ext_count, sil_ext.
      clear - Hl. generalize (a_step P C s e) as s0. induction Hl as [|e' l He' Hl IH]; intros s0; cbn [fold_left]; [apply sil_refl|].
      eapply sil_trans; [exact (sil_step s0 e' He')|apply IH].
    + rewrite E. destruct (IH (set_now (a_now s + ticks e) s) Hc Hs Ht) as [H|H]; [left; exact H|right].
      rewrite H. destruct s; unfold set_now; cbn. f_equal. lia.
Qed.

Lemma first_app m k f : first (m + k) f = first m f ++ map f (seq m k).
Proof. unfold first. rewrite seq_app, map_app. reflexivity. Qed.
Lemma sum_app a b : fold_right Z.add 0 (a ++ b) = fold_right Z.add 0 a + fold_right Z.add 0 b.
Proof. induction a as [|x a IH]; cbn [app fold_right]; [lia|]. rewrite IH. lia. Qed.
Lemma silent_map (f : nat -> aevent) l : (forall i, silent (f i)) -> Forall silent (map f l).
Proof. intros H. apply Forall_forall. intros e He. apply in_map_iff in He. destruct He as (i & <- & _). apply H. Qed.

Theorem silence_ends n es f :
  let h m := a_history (a_run P C (es ++ first m f)) in
  honest n (h 0%nat) -> known_last (h 0%nat) <> None -> existsb is_over (h 0%nat) = false -> ~ In OThrow (h 0%nat) ->
  (forall m, open_window w0 (h m)) ->
  r <> -1 -> (forall i, silent (f i)) -> keeps_going f ->
  exists m rs, In (OFail rs) (h m).
Proof.
  cbv beta zeta. change (first 0 f) with (@nil aevent). rewrite app_nil_r. intros Hh Hk Ho Hth Hw Hr Hsil Hgo.
  set (s0 := a_run P C es) in *.
  set (S m := a_run P C (es ++ first m f)).
  assert (HS : forall m, sil s0 (S m)) by (intros m; apply sil_run, silent_map, Hsil).
  destruct (on_track_state es (or_introl Hk) Ho Hth) as (Hc0 & Hs0 & _). fold s0 in Hc0, Hs0.
  (* the final segment *)
  assert (Kn : exists n0, known (a_tr s0) = Some n0).
  { unfold a_history in Hk. rewrite <- known_rev, rev_involutive in Hk. destruct (known (a_tr s0)); [eauto|congruence]. }
  destruct Kn as (n0 & Kn).
  set (B := Z.of_nat (N.to_nat (N.max (nf (a_tr s0)) (n0 + 1))) * (1 + Z.max 1 r)).
  assert (HB : forall m, count is_rto (a_tr (S m)) <= B).
  { intros m. destruct (inv_run C P (es ++ first m f)) as [HA _]. fold (S m) in HA.
    destruct (fi_run C P (es ++ first m f)) as [HF _]. fold (S m) in HF.
    pose proof (rto_bound _ _ HF) as H1. rewrite int_split in H1.
    destruct (HS m) as ((l & El & _) & _).
    pose proof (A_ok _ _ HA) as Hok. rewrite El in Hok. pose proof (nf_bound C n0 l (a_tr s0) Hok Kn) as H2. rewrite <- El in *.
    set (N1 := N.max (nf (a_tr s0)) (n0 + 1)) in *.
    rewrite (retx_sum C (N.to_nat N1) (a_tr (S m)) Hok) in H1 by lia.
    pose proof (crsum_le (N.to_nat N1) (a_tr (S m)) (Z.max 1 r) (fun k => A_crmax _ _ HA k Hr)) as H3.
    unfold B. lia. }
  (* not over: still busy *)
  assert (Hbusy : forall m, stopping (S m) = false -> a_crashed (S m) = false /\ a_timer (S m) = true /\ Busy (S m)).
  { intros m Hs. destruct (HS m) as ((l & El & Nl) & Ec & _). rewrite Hc0 in Ec. split; [exact Ec|].
    destruct (open_window_pos _ (Hw m)) as [W0 W1].
    destruct (prog_run C P n (es ++ first m f) W0 W1) as [H1 H2]; [|exact Ec|exact Hs|].
    - intros k d Hin. fold (S m) in Hin. rewrite El in Hin. apply in_app_or in Hin. destruct Hin as [Hin|Hin].
      + rewrite forallb_forall in Nl. specialize (Nl _ Hin). discriminate.
      + now apply (honest_tr n s0 Hh).
    - fold (S m) in H1, H2. split; [exact H1|]. apply H2.
      destruct (inv_run C P (es ++ first m f)) as [HA HR]. fold (S m) in HA, HR. specialize (HR Ec Hs).
      apply (R_fbif _ _ HR). pose proof (A_known _ _ HA) as K. rewrite El, known_app, Kn in K.
      destruct (hasFbi (S m)); [reflexivity|discriminate]. }
  (* one more timeout *)
  assert (Hstep : forall m, stopping (S m) = false ->
            exists m', stopping (S m') = true \/ count is_rto (a_tr (S m)) < count is_rto (a_tr (S m'))).
  { intros m Hs. destruct (Hbusy m Hs) as (Hc & Ht & (k & Hk')).
    destruct (Hgo m (elapsed m f + (deadline (a_segs (S m)) - a_now (S m) + 1))) as (j & order & Hj & Ej & HT).
    exists (Datatypes.S j). right.
    set (d := (j - m)%nat). assert (Ed : (j = m + d)%nat) by (unfold d; lia).
    assert (E1 : S j = fold_left (a_step P C) (map f (seq m d)) (S m)).
    { unfold S, a_run. rewrite Ed, first_app, app_assoc, fold_left_app. reflexivity. }
    assert (E2 : S (Datatypes.S j) = a_step P C (S j) (AeRto order)).
    { unfold S, a_run. replace (Datatypes.S j) with (j + 1)%nat by lia.
      rewrite first_app, app_assoc, fold_left_app. cbn [seq map fold_left]. rewrite Ej. reflexivity. }
    assert (E3 : elapsed j f = elapsed m f + fold_right Z.add 0 (map ticks (map f (seq m d)))).
    { unfold elapsed. rewrite Ed, first_app, map_app, sum_app. reflexivity. }
    destruct (silent_stretch (map f (seq m d)) (silent_map f _ Hsil) (S m) Hc Hs Ht) as [H|H].
    - rewrite <- E1 in H. eapply Z.lt_le_trans; [exact H|]. apply ext_count. rewrite E2. apply wk_step.
    - rewrite <- E1 in H. rewrite E2, H. set (s1 := set_now _ (S m)).
      assert (N1 : newrto k s1 (a_step P C s1 (AeRto order))).
      { unfold a_step. change (a_crashed s1) with (a_crashed (S m)). rewrite Hc. change (a_timer s1) with (a_timer (S m)). rewrite Ht.
        assert (He : expired (set_timer false s1) k) by (apply flk_expired; [exact Hk'|unfold s1; cbn; lia]).
        destruct (newrto_in _ _ _ (checkRto_fires order (set_timer false s1) k Hs He)) as (l & El & Hin).
        right. exists l. auto. }
      apply newrto_count in N1. exact N1. }
  (* descent *)
  assert (Hend : exists m, stopping (S m) = true).
  { assert (HD : forall b m, B - count is_rto (a_tr (S m)) < Z.of_nat b -> exists m', stopping (S m') = true).
    { induction b as [|b IH]; intros m Hb.
      - exfalso. specialize (HB m). lia.
      - destruct (stopping (S m)) eqn:Es; [eauto|]. destruct (Hstep m Es) as (m' & [H|H]); [eauto|].
        apply (IH m'). lia. }
    apply (HD (Z.to_nat (B - count is_rto (a_tr (S 0%nat)) + 1)) 0%nat). specialize (HB 0%nat). lia. }
  destruct Hend as (m & Hm). destruct (HS m) as (_ & _ & Hf). destruct (Hf Hm) as [H|(rs & H)]; [congruence|].
  exists m, rs. unfold a_history. apply -> in_rev. exact H.
Qed.
End Live.
