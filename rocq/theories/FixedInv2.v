From Verif Require Import Base BaseFacts PipelineBase PipelineSpec FetcherModel AdaptiveProofs AdaptiveTheorems FixedModel FixedSpec FixedProofs FixedInv.

Section Inv2.
Variable C : xconfig.
Notation r := (xc_maxRetries C).
Notation hasFbi s := (b_hasFbi (x_b s)).
Notation last s := (b_last (x_b s)).
Notation stopping s := (b_stopping (x_b s)).
Notation slotAt s j := (nth_error (x_slots s) j).

Lemma known_interest k x t : known (OInterest k x :: t) = known t.
Proof. cbn. destruct (known t); reflexivity. Qed.

(** a slot that may be given a new segment *)
Definition free (s : xstate) (i : nat) : Prop :=
  match slotAt s i with
  | Some (Some (f, k)) => f_isRunning f = false /\ f_hasError f = false /\ In k (dl (x_tr s))
  | Some None => True
  | None => False
  end.

Lemma same_for_send k next t : (k < next)%N -> next = nf t -> same_for C k t (OInterest next false :: t).
Proof.
  intros Hk Hn. unfold same_for. cbn [nf dl fl aw flight_step await_step].
  assert (Hne : k <> next) by lia.
  assert (Hx : forall l, In k (next :: remove N.eq_dec next l) <-> In k l).
  { intros l. cbn. rewrite in_remove. intuition congruence. }
  rewrite !Hx, !count_cons. cbn [nack_for expiry_for]. repeat split; auto; try lia.
  apply lostx_cons.
Qed.

Lemma fetchNext_ok i s :
  XI C s -> stopping s = false -> b_allReceived (x_b s) = false -> free s i ->
  let s' := fst (fetchNextSegment C i s) in
  XJ C s' /\ x_crashed s' = x_crashed s /\
  (snd (fetchNextSegment C i s) = true ->
     x_slots s' = upd i (Some (fst f_start, b_next (x_b s))) (x_slots s) /\
     stopping s' = false /\ x_hasFailure s' = false /\ hasFbi s' = hasFbi s /\ Busy s').
Proof.
  intros [HA HR] Hs Hall Hfree. specialize (HR Hs). unfold fetchNextSegment. rewrite Hs.
  destruct (x_hasFailure s) eqn:Hf.
  { cbn [fst snd].
    assert (HG : XG C (x_tr s) (OFail RNoFinal)).
    { cbn. split; [now rewrite (X_end _ _ HA)|]. split; [apply (X_hf _ _ HA Hf)|].
      intros n Hn. rewrite (X_known _ _ HA) in Hn. destruct (hasFbi s) eqn:Hb; [|discriminate].
      injection Hn as <-. pose proof (X_recv _ _ HA) as Hrecv.
      pose proof (allReceived_false _ Hall Hb) as H. rewrite Hrecv in H. lia. }
    destruct (xi_onFailure C RNoFinal s HA Hs HG) as (H1 & _ & H3). split; [exact H1|]. split; [exact H3|discriminate]. }
  cbn [b_getNext b_hasFbi b_last].
  destruct (hasFbi s && (last s <? b_next (x_b s))%N) eqn:Hend; cbn [fst snd].
  { apply andb_prop in Hend. destruct Hend as [Hb Hlt]. apply N.ltb_lt in Hlt.
    unfold fbOf in HR. rewrite Hb in HR.
    split; [|split; [reflexivity|discriminate]].
    assert (Hnf : (last s < nf (x_tr s))%N).
    { destruct (Y_phase _ _ _ HR) as [E|(n & E & Hn)]; [rewrite E; exact Hlt|]. injection E as <-. exact Hn. }
    split; [split|].
    - destruct HA. constructor; cbn; auto. lia.
    - cbn. intros _. unfold fbOf. cbn. rewrite Hb.
      destruct HR. constructor; cbn; auto. right. exists (last s). split; [reflexivity|exact Hnf].
    - cbn. intros _. right. pose proof (X_recv _ _ HA) as Hrecv.
      pose proof (allReceived_false _ Hall Hb) as H. rewrite Hrecv in H.
      destruct (missing (last s) (dl (x_tr s))) as (k & Hk & Hnd); [lia|].
      destruct (Y_cov _ _ _ HR k) as [?|(j & f & Hj)]; [lia|contradiction|].
      exists j, f, k. split; [exact Hj|].
      destruct (Y_slot _ _ _ HR j f k Hj) as (_ & _ & _ & He & Hc).
      destruct (f_isRunning f) eqn:Hrun; [reflexivity|exfalso].
      destruct (f_hasError f) eqn:Herr.
      + destruct (He eq_refl) as (_ & _ & Hx). lia.
      + specialize (Hc eq_refl eq_refl Hnd). lia. }
  set (next := b_next (x_b s)).
  assert (Hnext : next = nf (x_tr s)).
  { destruct (Y_phase _ _ _ HR) as [E|(n & E & Hn)]; [now symmetry|].
    unfold fbOf in E. destruct (hasFbi s) eqn:Hb; [|discriminate]. injection E as <-.
    cbn in Hend. apply N.ltb_ge in Hend. pose proof (X_next _ _ HA). unfold next. lia. }
  assert (Hi : (i < length (x_slots s))%nat).
  { apply nth_error_Some. unfold free in Hfree. destruct (slotAt s i); [discriminate|contradiction]. }
  assert (Hnorun : forall f k, slotAt s i = Some (Some (f, k)) -> f_isRunning f = false /\ f_hasError f = false /\ In k (dl (x_tr s))).
  { unfold free in Hfree. intros f k E. rewrite E in Hfree. exact Hfree. }
  assert (Hmatch : forall s0 : xstate, match slotAt s i with
     | Some (Some (f, _)) => if f_isRunning f then x_emit OAssert s0 else s0 | _ => s0 end = s0).
  { intros s0. destruct (slotAt s i) as [[[f k]|]|] eqn:E; try reflexivity. destruct (Hnorun f k eq_refl) as [-> _]. reflexivity. }
  cbn [x_emit x_slots x_setB]. rewrite Hmatch. cbn [x_slots x_setSlots x_emit].
  set (t' := OInterest next false :: x_tr s).
  set (b' := PBase (hasFbi s) (last s) (b_nReceived (x_b s)) (b_recvSize (x_b s)) (next + 1)%N (stopping s)).
  set (s' := XState b' (upd i (Some (fst f_start, next)) (x_slots s)) (x_hasFailure s) (x_crashed s) t').
  change (XJ C s' /\ x_crashed s = x_crashed s /\ (true = true ->
     x_slots s' = x_slots s' /\ stopping s = false /\ x_hasFailure s = false /\ hasFbi s = hasFbi s /\ Busy s')).
  assert (Hslot : forall j, slotAt s' j = if Nat.eqb j i then Some (Some (fst f_start, next)) else slotAt s j).
  { intros j. unfold s'. cbn [x_slots]. rewrite nth_upd. destruct (Nat.eqb_spec j i) as [->|]; [|reflexivity].
    destruct (slotAt s i) eqn:E; [reflexivity|]. apply nth_error_None in E. lia. }
  assert (Hfresh : forall j f k, slotAt s j = Some (Some (f, k)) -> (k < next)%N).
  { intros j f k H. rewrite Hnext. apply (Y_slot _ _ _ HR j f k H). }
  assert (Hflslot : forall k, In k (fl (x_tr s)) -> exists j f, slotAt s j = Some (Some (f, k)) /\ j <> i).
  { intros k Hk. destruct (X_aw _ _ HA k (fl_aw _ _ Hk)) as (j & f & Hj & Hrun). exists j, f. split; [exact Hj|].
    intros ->. destruct (Hnorun _ _ Hj). congruence. }
  assert (HG : XG C (x_tr s) (OInterest next false)).
  { cbn. split; [now rewrite (X_end _ _ HA)|]. split.
    { intros n Hn. rewrite (X_known _ _ HA) in Hn. destruct (hasFbi s) eqn:Hb; [|discriminate]. injection Hn as <-.
      cbn in Hend. apply N.ltb_ge in Hend. exact Hend. }
    split; [intros Hin; destruct (Hflslot _ Hin) as (j & f & Hj & _); apply Hfresh in Hj; lia|].
    split; [|exact Hnext].
    rewrite <- (Y_len _ _ _ HR). eapply fewer; eauto using nodup_fl. }
  assert (Hbusy : Busy s').
  { exists i, (fst f_start), next. split; [now rewrite Hslot, Nat.eqb_refl|reflexivity]. }
  split; [|split; [reflexivity|auto 6]].
  split; [split|].
  - destruct HA. constructor; unfold s', t'; cbn -[xtr_ok upd f_start]; auto.
    + rewrite N.add_1_r. lia.
    + intros k Hk. apply X_dl in Hk. lia.
    + rewrite X_known. destruct (hasFbi s); reflexivity.
    + split; [exact HG|exact X_ok].
    + intros Hff. congruence.
    + intros k Hk. fold s'. cbn [await_step aw] in Hk. destruct Hk as [<-|Hk].
      * exists i, (fst f_start). rewrite Hslot, Nat.eqb_refl. auto.
      * apply in_remove in Hk. destruct Hk as [Hk Hne]. destruct (X_aw k Hk) as (j & f & Hj & Hrun).
        exists j, f. rewrite Hslot. destruct (Nat.eqb_spec j i) as [->|]; [|auto].
        destruct (Hnorun _ _ Hj). congruence.
    + congruence.
  - intros _. change (fbOf s') with (fbOf s).
    assert (Hkeep : forall j f0 k0, slotAt s j = Some (Some (f0, k0)) -> f_hasError f0 = true ->
                                    slotAt s' j = Some (Some (f0, k0))).
    { intros j f0 k0 H He. rewrite Hslot. destruct (Nat.eqb_spec j i) as [->|]; [|exact H].
      destruct (Hnorun _ _ H) as (_ & E & _). congruence. }
    pose proof HR as HR0. destruct HR. constructor.
    + unfold s'. cbn. rewrite length_upd. exact Y_len.
    + intros a b fa fb ka. rewrite !Hslot.
      destruct (Nat.eqb_spec a i) as [->|Ha], (Nat.eqb_spec b i) as [->|Hb']; auto.
      * intros [= <- <-] H. apply Hfresh in H. lia.
      * intros H [= <- E]. subst ka. apply Hfresh in H. lia.
      * intros. eapply Y_inj; eauto.
    + intros j f k. rewrite Hslot. destruct (Nat.eqb_spec j i) as [->|Hj].
      * intros [= <- <-]. unfold slot_ok, s', t'. cbn -[f_start].
        assert (Hcn : forall p, (forall o, In o (x_tr s) -> p o = false) -> count p (x_tr s) = 0).
        { clear. intros p H. induction (x_tr s) as [|o t IH]; [reflexivity|].
          rewrite count_cons, IH by (intros; apply H; now right). rewrite H by now left. reflexivity. }
        split; [lia|]. split; [split; [reflexivity|now left]|]. split.
        { intros _. split; [intros Hd; apply (X_dl _ _ HA) in Hd; lia|].
          split.
          { unfold fbOf. destruct (hasFbi s) eqn:Hb; cbn; [|tauto]. cbn in Hend. apply N.ltb_ge in Hend. lia. }
          assert (Hev : forall o, In o (x_tr s) -> nack_for next o = false /\ expiry_for next o = false).
          { assert (Hb : forall t o, xtr_ok C t -> In o t -> match o with OGotNack k _ | OGotExpiry k => (k < nf t)%N | _ => True end).
            { clear. induction t as [|x t IH]; intros o Hok Hin; [contradiction|].
              assert (Hmono : (nf t <= nf (x :: t))%N) by (cbn; destruct x; try lia; destruct retx; lia).
              assert (Hfl : xtr_ok C t -> forall k, In k (fl t) -> (k < nf t)%N).
              { clear. induction t as [|y t IH]; intros Hok k; [contradiction|]. destruct Hok as [HG Hok].
                specialize (IH Hok). cbn [nf fl].
                destruct y as [| | | |sg rx| | | | | | | | | | | | |]; cbn [flight_step]; rewrite ?in_remove; try (intros H; apply IH; tauto).
                cbn in HG. destruct HG as (_ & _ & _ & _ & HG).
                intros [<-|H]; [|apply in_remove in H; destruct H as [H _]; apply IH in H; destruct rx; lia].
                destruct rx; [lia|subst; lia]. }
              destruct Hok as [HG Hok]. destruct Hin as [->|Hin].
              - destruct o; try exact I; cbn in HG; apply (Hfl Hok) in HG; lia.
              - specialize (IH o Hok Hin). destruct o; try exact I; lia. }
            intros o Ho. specialize (Hb (x_tr s) o (X_ok _ _ HA) Ho).
            destruct o; cbn; auto; split; auto; apply N.eqb_neq; lia. }
          rewrite !count_cons. cbn [nack_for expiry_for].
          rewrite !Hcn by (intros o Ho; now destruct (Hev o Ho)).
          destruct (r =? -1); auto. }
        split; [cbn; discriminate|cbn; discriminate].
      * intros H. eapply (slot_ok_same C _ s s'); eauto.
        unfold s', t'. cbn [x_tr]. apply same_for_send; [now apply Hfresh in H|exact Hnext].
    + intros k. unfold s', t'. cbn [x_tr nf dl]. fold t'. intros Hk.
      destruct (N.eq_dec k next) as [->|Hne].
      * right. exists i, (fst f_start). fold s'. now rewrite Hslot, Nat.eqb_refl.
      * destruct (Y_cov k) as [?|(j & f & Hj)]; [lia|now left|].
        destruct (Nat.eq_dec j i) as [->|Hji].
        { left. apply (Hnorun _ _ Hj). }
        right. exists j, f. fold s'. rewrite Hslot. destruct (Nat.eqb_spec j i); [contradiction|exact Hj].
    + left. unfold s', t', b'. cbn. lia.
  - intros _. now right.
Qed.
End Inv2.
