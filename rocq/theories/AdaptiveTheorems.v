(** From the invariants to statements about the chronological history. *)
From Verif Require Import Base BaseFacts PipelineBase PipelineSpec FetcherModel AdaptiveModel AdaptiveProofs AdaptiveInv AdaptiveInv2 AdaptiveFlight.

(** * Latest-first and chronological trace functions *)
Lemma known_app a b : known (a ++ b) = match known b with Some n => Some n | None => known a end.
Proof.
  induction a as [|o a IH]; cbn; [destruct (known b); reflexivity|].
  rewrite IH. destruct (known b); [reflexivity|]. reflexivity.
Qed.

Lemma known_rev h : known (rev h) = known_last h.
Proof.
  induction h as [|o h IH]; cbn; [reflexivity|]. rewrite known_app, IH. cbn.
  destruct o; try reflexivity. unfold fbi_of. destruct (d_fbi d); reflexivity.
Qed.

Lemma dl_rev h : dl (rev h) = rev (map fst (deliveries h)).
Proof.
  induction h as [|o h IH]; cbn; [reflexivity|]. rewrite dl_app, IH.
  destruct o; cbn; rewrite ?app_nil_r; reflexivity.
Qed.

Lemma nf_app a b : nf (a ++ b) = (nf a + nf b)%N.
Proof.
  induction a as [|o a IH]; cbn; [reflexivity|]. destruct o; auto. destruct retx; [exact IH|]. lia.
Qed.

Lemma nf_rev h : nf (rev h) = N.of_nat (length (first_sends h)).
Proof.
  induction h as [|o h IH]; cbn; [reflexivity|]. rewrite nf_app, IH.
  unfold first_sends. cbn. rewrite app_length. destruct o; cbn; try lia. destruct retx; cbn; lia.
Qed.

Lemma cr_app k a b : cr k (a ++ b) = cr k a + cr k b.
Proof.
  induction a as [|o a IH]; cbn; [reflexivity|]. destruct o; auto. destruct retx; [|exact IH].
  rewrite IH. lia.
Qed.

Lemma cr_rev k h : cr k (rev h) = count (is_resend k) h.
Proof.
  induction h as [|o h IH]; cbn; [reflexivity|]. rewrite cr_app, IH, count_cons. cbn.
  destruct o; cbn; try lia. destruct retx; cbn; lia.
Qed.

Lemma ended_app a b : ended (a ++ b) = ended a || ended b.
Proof. induction a as [|o a IH]; cbn; [reflexivity|]. destruct o; auto. Qed.

Lemma ended_rev h : ended (rev h) = existsb is_over h.
Proof.
  induction h as [|o h IH]; cbn; [reflexivity|]. rewrite ended_app, IH.
  destruct o; cbn; rewrite ?orb_false_r, ?orb_true_r; reflexivity.
Qed.

Lemma count_rev {A} (p : A -> bool) l : count p (rev l) = count p l.
Proof.
  induction l as [|x l IH]; cbn; [reflexivity|]. rewrite count_app, IH, !count_cons, count_nil. lia.
Qed.

Lemma flset_rev h : flset (rev h) = outstanding h.
Proof.
  unfold outstanding. rewrite <- (rev_involutive h) at 2. rewrite <- fold_left_rev_right, rev_involutive.
  generalize (rev h). intros l. induction l as [|o l IH]; cbn; [reflexivity|]. now rewrite IH.
Qed.

Lemma wnd_rev w0 h : wnd w0 (rev h) = window w0 h.
Proof.
  unfold window. rewrite <- (rev_involutive h) at 2. rewrite <- fold_left_rev_right, rev_involutive.
  generalize (rev h). intros l. induction l as [|o l IH]; cbn; [reflexivity|]. destruct o; auto.
Qed.

Lemma rev_split {A} (h h1 h2 : list A) o : h = h1 ++ o :: h2 -> rev h = rev h2 ++ o :: rev h1.
Proof. intros ->. rewrite rev_app_distr. cbn. now rewrite <- app_assoc. Qed.

Lemma rev_unsplit {A} (t l1 l2 : list A) o : t = l1 ++ o :: l2 -> rev t = rev l2 ++ o :: rev l1.
Proof. intros ->. rewrite rev_app_distr. cbn. now rewrite <- app_assoc. Qed.

Lemma in_fl_existsb k l : in_fl k l = existsb (N.eqb k) l.
Proof.
  unfold in_fl. destruct (in_dec N.eq_dec k l) as [H|H]; symmetry.
  - apply existsb_exists. exists k. split; [exact H|apply N.eqb_refl].
  - apply not_true_is_false. intros E. apply existsb_exists in E. destruct E as (x & Hx & E).
    apply N.eqb_eq in E. now subst.
Qed.

Lemma stale_from_app h1 : forall l h2,
  stale_losses_from l (h1 ++ h2) = stale_losses_from l h1 + stale_losses_from (fold_left fl_step h1 l) h2.
Proof.
  induction h1 as [|o h1 IH]; intros l h2; cbn [app stale_losses_from fold_left]; [lia|]. rewrite IH. lia.
Qed.

Lemma stale_rev h : stale (rev h) = stale_losses h.
Proof.
  assert (H : forall t, stale t = stale_losses (rev t)).
  { induction t as [|o t IH]; [reflexivity|]. cbn [rev stale]. unfold stale_losses in *.
    rewrite stale_from_app, <- IH. change (fold_left fl_step (rev t) []) with (outstanding (rev t)).
    rewrite <- flset_rev, rev_involutive. cbn [stale_losses_from].
    destruct o; try (cbn; lia).
    - destruct r; try (cbn; lia). rewrite in_fl_existsb. lia.
    - rewrite in_fl_existsb. lia.
    - rewrite in_fl_existsb. lia. }
  rewrite H, rev_involutive. reflexivity.
Qed.

Lemma no_stale_zero h : no_stale_loss h -> stale_losses h = 0.
Proof.
  intros H. enough (G : forall h1 h2, h = h1 ++ h2 -> stale_losses_from (outstanding h1) h2 = 0).
  { exact (G [] h eq_refl). }
  intros h1 h2. revert h1. induction h2 as [|o h2 IH]; intros h1 E; [reflexivity|].
  cbn [stale_losses_from]. replace (fl_step (outstanding h1) o) with (outstanding (h1 ++ [o])).
  2: { unfold outstanding. rewrite fold_left_app. reflexivity. }
  rewrite (IH (h1 ++ [o])) by (rewrite E, <- app_assoc; reflexivity).
  specialize (H h1 o h2 E). rewrite Z.add_0_r.
  assert (X : forall k, In k (outstanding h1) -> (if existsb (N.eqb k) (outstanding h1) then 0 else 1) = 0).
  { intros k Hk. rewrite <- in_fl_existsb. unfold in_fl. destruct (in_dec _ _ _); [reflexivity|contradiction]. }
  destruct o; auto. destruct r; auto.
Qed.

(** * Position lemmas *)
Lemma tr_ok_at C l o t : tr_ok C (l ++ o :: t) -> G C t o /\ tr_ok C t.
Proof. induction l as [|x l IH]; cbn; [auto|]. intros [_ H]. auto. Qed.

Lemma tr_ok_app C l t : tr_ok C (l ++ t) -> tr_ok C t.
Proof. induction l as [|x l IH]; cbn; [auto|]. intros [_ H]. auto. Qed.

Lemma sends_ok_at w0 l k x t : sends_ok w0 (l ++ OInterest k x :: t) ->
  Z.of_nat (length (flset t)) < wnd w0 t + stale t.
Proof. induction l as [|o l IH]; cbn; [tauto|]. intros [_ H]. auto. Qed.

Lemma in_first_sends h k : In k (first_sends h) <-> In (OInterest k false) h.
Proof.
  unfold first_sends. rewrite in_flat_map. split.
  - intros (o & H1 & H2). destruct o; cbn in H2; try contradiction.
    destruct retx; [contradiction|]. destruct H2 as [->|[]]. exact H1.
  - intros H. exists (OInterest k false). split; [exact H|now left].
Qed.

Lemma first_sends_app a b : first_sends (a ++ b) = first_sends a ++ first_sends b.
Proof. unfold first_sends. apply flat_map_app. Qed.
Lemma deliveries_app a b : deliveries (a ++ b) = deliveries a ++ deliveries b.
Proof. unfold deliveries. apply flat_map_app. Qed.

Lemma in_deliveries h k d : In (k, d) (deliveries h) <-> In (ODeliver k d) h.
Proof.
  unfold deliveries. rewrite in_flat_map. split.
  - intros (o & H1 & H2). destruct o; cbn in H2; try contradiction.
    destruct H2 as [[= -> ->]|[]]. exact H1.
  - intros H. exists (ODeliver k d). split; [exact H|now left].
Qed.

Lemma upto_S n : upto (S n) = upto n ++ [N.of_nat n].
Proof. unfold upto. rewrite seq_S, map_app. reflexivity. Qed.
Lemma length_upto n : length (upto n) = n.
Proof. unfold upto. now rewrite map_length, seq_length. Qed.
Lemma in_upto n k : In k (upto n) <-> (k < N.of_nat n)%N.
Proof.
  unfold upto. rewrite in_map_iff. split.
  - intros (x & <- & H). apply in_seq in H. lia.
  - intros H. exists (N.to_nat k). split; [lia|]. apply in_seq. lia.
Qed.

Lemma tr_ok_first_sends C h : tr_ok C (rev h) -> first_sends h = upto (length (first_sends h)).
Proof.
  intros H. rewrite <- (rev_involutive h). revert H. generalize (rev h). intros t.
  induction t as [|o t IH]; cbn [rev tr_ok]; [reflexivity|]. intros [HG Hok]. specialize (IH Hok).
  rewrite first_sends_app, app_length. destruct o; try (cbn; rewrite app_nil_r, Nat.add_0_r; exact IH).
  destruct retx; [cbn; rewrite app_nil_r, Nat.add_0_r; exact IH|].
  cbn in HG. destruct HG as (_ & _ & ->).
  change (first_sends [OInterest (nf t) false]) with [nf t]. cbn [length].
  rewrite Nat.add_1_r, upto_S, <- IH. f_equal. f_equal.
  rewrite <- (rev_involutive t) at 1. now rewrite nf_rev.
Qed.

Section Theorems.
Context {W R : Type}.
Variable P : policy W R.
Variable C : aconfig.
Variable es : list aevent.
Notation s := (a_run P C es).
Notation h := (a_history (a_run P C es)).
Notation r := (c_maxRetries C).

Lemma hist_ok : tr_ok C (rev h).
Proof. unfold a_history. rewrite rev_involutive. apply A_ok. apply (inv_run C P es). Qed.

Lemma hist_at h1 o h2 : h = h1 ++ o :: h2 -> G C (rev h1) o /\ tr_ok C (rev h1).
Proof. intros E. pose proof hist_ok as H. rewrite (rev_split _ _ _ _ E) in H. eapply tr_ok_at; eauto. Qed.

Lemma first_sends_prefix h1 h2 : h = h1 ++ h2 -> first_sends h1 = upto (length (first_sends h1)).
Proof.
  intros E. apply (tr_ok_first_sends C). pose proof hist_ok as H. rewrite E, rev_app_distr in H.
  eapply tr_ok_app; eauto.
Qed.

Lemma sent_before h1 h2 k : h = h1 ++ h2 -> (k < nf (rev h1))%N -> In (OInterest k false) h1.
Proof.
  intros E H. apply in_first_sends. rewrite (first_sends_prefix _ _ E). apply in_upto.
  rewrite nf_rev in H. exact H.
Qed.

(** C05 *)
Lemma adaptive_once : NoDup (map fst (deliveries h)).
Proof.
  assert (H : forall t, tr_ok C t -> NoDup (dl t)).
  { induction t as [|o t IH]; cbn; [constructor|]. intros [HG Hok].
    destruct o; auto. cbn in HG. constructor; tauto. }
  specialize (H _ hist_ok). rewrite dl_rev in H. apply NoDup_rev in H. now rewrite rev_involutive in H.
Qed.

Lemma adaptive_delivery_genuine h1 seg d h2 :
  h = h1 ++ ODeliver seg d :: h2 -> In (OGotData seg d) h1 /\ In (OInterest seg false) h1.
Proof.
  intros E. destruct (hist_at _ _ _ E) as [HG _]. cbn in HG. destruct HG as (_ & _ & H1 & H2).
  split; [now apply in_rev|]. eapply sent_before; eauto.
Qed.

(** C06 *)
Lemma adaptive_final h1 seg x h2 n :
  h = h1 ++ OInterest seg x :: h2 -> known_last h1 = Some n -> (seg <= n)%N.
Proof.
  intros E. destruct (hist_at _ _ _ E) as [HG _]. cbn in HG. destruct HG as (_ & H & _).
  rewrite known_rev in H. apply H.
Qed.

(** C07 *)
Lemma adaptive_in_order : first_sends h = upto (length (first_sends h)).
Proof. apply (first_sends_prefix h []). now rewrite app_nil_r. Qed.

Lemma adaptive_resend h1 seg h2 :
  h = h1 ++ OInterest seg true :: h2 ->
  In (OInterest seg false) h1 /\ ~ In seg (map fst (deliveries h1)).
Proof.
  intros E. destruct (hist_at _ _ _ E) as [HG _]. cbn in HG. destruct HG as (_ & _ & H1 & H2 & _).
  split; [eapply sent_before; eauto|]. rewrite dl_rev, <- in_rev in H2. exact H2.
Qed.

(** C10 *)
Lemma adaptive_over h1 o h2 :
  h = h1 ++ o :: h2 -> is_over o = true -> forall x, In x h2 -> is_action x = false.
Proof.
  intros E Ho x Hx. apply in_split in Hx. destruct Hx as (a & b & ->).
  assert (E' : h = (h1 ++ o :: a) ++ x :: b) by (rewrite E, <- app_assoc; reflexivity).
  destruct (hist_at _ _ _ E') as [HG _].
  assert (Hend : ended (rev (h1 ++ o :: a)) = true).
  { rewrite ended_rev, existsb_app. cbn. rewrite Ho. apply orb_true_r. }
  destruct x; try reflexivity; cbn in HG; destruct HG as [HG _]; congruence.
Qed.

(** C12 *)
Lemma count_sends h' seg :
  count (is_send seg) h' = count (is_resend seg) h' + Z.of_nat (count_occ N.eq_dec (first_sends h') seg).
Proof.
  induction h' as [|o h' IH]; [reflexivity|]. rewrite !count_cons, IH.
  unfold first_sends. cbn [flat_map]. rewrite count_occ_app.
  destruct o; cbn [is_send is_resend count_occ]; try lia.
  destruct retx; cbn [count_occ]; destruct (N.eqb_spec seg0 seg); try lia;
  destruct (N.eq_dec seg0 seg); try contradiction; lia.
Qed.

Lemma adaptive_retries seg : r <> -1 -> count (is_send seg) h <= 1 + Z.max 1 r.
Proof.
  intros Hr. rewrite count_sends.
  pose proof (A_crmax _ _ (proj1 (inv_run C P es)) seg Hr) as H.
  rewrite <- cr_rev. unfold a_history at 1. rewrite rev_involutive.
  assert (count_occ N.eq_dec (first_sends h) seg <= 1)%nat; [|lia].
  rewrite adaptive_in_order. apply NoDup_count_occ. unfold upto.
  apply FinFun.Injective_map_NoDup; [|apply seq_NoDup]. intros a b. lia.
Qed.

(** C14 *)
Lemma cause_rev h1 seg rs : cause C (rev h1) seg rs ->
  match rs with
  | RNack k rr => k = seg /\ refused h1 seg rr
  | RMaxRetries k => k = seg /\ exhausted r h1 seg
  | _ => False
  end.
Proof.
  unfold cause, maxed, refused, exhausted. destruct rs; try tauto.
  - rewrite cr_rev. tauto.
  - rewrite <- in_rev. tauto.
Qed.

Lemma adaptive_failure h1 rs h2 : h = h1 ++ OFail rs :: h2 -> failure_justified r h1 rs.
Proof.
  intros E. destruct (hist_at _ _ _ E) as [HG _]. cbn [G] in HG. destruct HG as (_ & HJ).
  unfold justF in HJ. destruct rs; try contradiction.
  - rewrite known_rev in HJ. destruct HJ as [H1 (seg & rs & H2)]. split; [exact H1|].
    exists seg. apply cause_rev in H2. destruct rs; try contradiction; destruct H2 as [-> H2]; eauto.
  - destruct HJ as [H1 H2]. rewrite known_rev in H2. apply cause_rev in H1. cbn. tauto.
  - destruct HJ as [H1 H2]. rewrite known_rev in H2. apply cause_rev in H1. cbn. tauto.
Qed.

(** C17 *)
Lemma recp_mid a o b : is_decr o = true -> existsb is_decr b = false ->
  recp (rev (a ++ o :: b)) = N.pred (nf (rev a)).
Proof.
  intros Ho Hb. rewrite (rev_split (a ++ o :: b) a b o eq_refl).
  assert (Hr : existsb is_decr (rev b) = false).
  { apply not_true_iff_false. intros H. apply existsb_exists in H. destruct H as (x & H1 & H2).
    apply in_rev in H1. apply not_true_iff_false in Hb. apply Hb. apply existsb_exists. eauto. }
  clear Hb. induction (rev b) as [|x t IH]; cbn [app].
  - destruct o; try discriminate; reflexivity.
  - cbn in Hr. apply orb_false_iff in Hr. destruct Hr as [Hx Hr]. specialize (IH Hr).
    destruct x; try discriminate; exact IH.
Qed.

Lemma sent_between h1 o h2 h3 k :
  h = (h1 ++ o :: h2) ++ h3 -> (N.pred (nf (rev h1)) < k)%N -> (k < nf (rev (h1 ++ o :: h2)))%N ->
  is_decr o = true ->
  In (OInterest k false) h2.
Proof.
  intros E Hlo Hhi Ho.
  assert (Hk : (nf (rev h1) <= k)%N) by lia.
  pose proof (sent_before _ _ k E Hhi) as H. apply in_app_or in H.
  destruct H as [H|[H|H]]; [|subst; discriminate|exact H].
  exfalso. apply in_first_sends in H.
  rewrite (first_sends_prefix h1 (o :: h2 ++ h3)) in H by (rewrite E, <- app_assoc; reflexivity).
  apply in_upto in H. rewrite nf_rev in Hk. lia.
Qed.

Lemma adaptive_decr_loss h1 o h2 seg h3 :
  c_disableCwa C = false ->
  h = h1 ++ o :: h2 ++ ODecrLoss seg :: h3 ->
  is_decr o = true -> existsb is_decr h2 = false ->
  In (OInterest seg false) h2 /\ exists l, In l h2 /\ lost seg l = true.
Proof.
  intros Hc E Ho H2.
  assert (E' : h = (h1 ++ o :: h2) ++ ODecrLoss seg :: h3) by (rewrite E, <- app_assoc; reflexivity).
  destruct (hist_at _ _ _ E') as [HG _]. cbn [G] in HG. destruct HG as (Hlt & (l & Hl1 & Hl2) & Hrec).
  destruct Hrec as [Hrec|Hrec]; [congruence|]. rewrite recp_mid in Hrec by auto.
  split; [eapply sent_between; eauto|].
  exists l. split; [|exact Hl2].
  apply in_rev in Hl1. apply in_app_or in Hl1. destruct Hl1 as [Hl1|[->|Hl1]]; [| |exact Hl1].
  - exfalso. apply in_split in Hl1. destruct Hl1 as (a & b & ->).
    assert (E2 : h = a ++ l :: b ++ o :: h2 ++ ODecrLoss seg :: h3).
    { rewrite E. repeat (rewrite <- app_assoc; cbn). reflexivity. }
    destruct (hist_at _ _ _ E2) as [HG _].
    rewrite (rev_split (a ++ l :: b) a b l eq_refl), nf_app in Hrec. cbn [nf] in Hrec.
    assert (Hn : (seg < nf (rev a))%N).
    { destruct l as [|? rr| | | | | | | | | | | | | | | |]; cbn in Hl2; try discriminate.
      - destruct rr; try discriminate. apply N.eqb_eq in Hl2. subst. exact HG.
      - apply N.eqb_eq in Hl2. subst. exact HG.
      - apply N.eqb_eq in Hl2. subst. exact HG. }
    destruct l; try discriminate; lia.
  - destruct l; discriminate.
Qed.

Lemma adaptive_decr_mark h1 o h2 seg h3 :
  c_disableCwa C = false ->
  h = h1 ++ o :: h2 ++ ODecrMark seg :: h3 ->
  is_decr o = true -> existsb is_decr h2 = false ->
  (exists d, In (OGotData seg d) (h1 ++ o :: h2) /\ d_mark d = true) /\
  exists k, In (OInterest k false) h2 /\ (k = seg \/ In k (map fst (deliveries (h1 ++ o :: h2)))).
Proof.
  intros Hc E Ho H2.
  assert (E' : h = (h1 ++ o :: h2) ++ ODecrMark seg :: h3) by (rewrite E, <- app_assoc; reflexivity).
  destruct (hist_at _ _ _ E') as [HG Hok]. cbn [G] in HG. destruct HG as (Hlt & Hnd & (d & Hd1 & Hd2) & Hrec).
  destruct Hrec as [Hrec|(k & Hk & Hrec)]; [congruence|]. rewrite recp_mid in Hrec by auto.
  split; [exists d; split; [now apply in_rev|exact Hd2]|].
  exists k.
  assert (Hin : k = seg \/ In k (map fst (deliveries (h1 ++ o :: h2)))).
  { destruct Hk as [->|Hk]; [now left|right]. rewrite dl_rev in Hk. now apply in_rev in Hk. }
  split; [|exact Hin].
  eapply sent_between; eauto.
  destruct Hk as [->|Hk]; [exact Hlt|].
  assert (HD : forall t, tr_ok C t -> forall k, In k (dl t) -> (k < nf t)%N).
  { clear. induction t as [|x t IH]; cbn; [contradiction|]. intros [HG Hok] k.
    destruct x; try (apply IH; exact Hok).
    - destruct retx; [apply IH; exact Hok|]. intros H. specialize (IH Hok k H). lia.
    - cbn in HG. intros [<-|H]; [tauto|]. now apply IH. }
  now apply HD.
Qed.

(** C09 *)
Lemma adaptive_window_stale h1 seg x h2 :
  h = h1 ++ OInterest seg x :: h2 ->
  Z.of_nat (length (outstanding h1)) < window (p_floor P (p_initW P)) h1 + stale_losses h1.
Proof.
  intros E. rewrite <- flset_rev, <- wnd_rev, <- stale_rev.
  destruct (fi_run C P es) as [H _]. unfold a_history in E.
  rewrite <- (rev_involutive (a_tr s)), (rev_split _ _ _ _ E) in H. eapply sends_ok_at; eauto.
Qed.

Lemma adaptive_window h1 seg x h2 :
  h = h1 ++ OInterest seg x :: h2 -> no_stale_loss h1 ->
  Z.of_nat (length (outstanding h1)) < window (p_floor P (p_initW P)) h1.
Proof.
  intros E Hd. pose proof (adaptive_window_stale h1 seg x h2 E). rewrite (no_stale_zero _ Hd) in *. lia.
Qed.

(** Completion *)
Lemma adaptive_done h1 h2 : h = h1 ++ ODone :: h2 ->
  exists n, known_last h1 = Some n /\ (N.to_nat n < length (deliveries h1))%nat.
Proof.
  intros E. destruct (hist_at _ _ _ E) as [HG _]. cbn in HG. destruct HG as (_ & n & H1 & H2).
  exists n. rewrite known_rev in H1. split; [exact H1|].
  rewrite dl_rev, rev_length, map_length in H2. exact H2.
Qed.

(** RTT samples *)
Lemma adaptive_karn h1 seg rtt n h2 :
  h = h1 ++ ORttSample seg rtt n :: h2 -> 0 <= rtt /\ 1 <= n /\ count (is_resend seg) h1 = 0.
Proof.
  intros E. destruct (hist_at _ _ _ E) as [HG _]. cbn in HG. now rewrite cr_rev in HG.
Qed.

(** Counters *)
Lemma dsize_app a b : dsize (a ++ b) = dsize a + dsize b.
Proof. induction a as [|o a IH]; cbn; [lia|]. destruct o; auto. rewrite IH. lia. Qed.

Lemma dsize_rev h' : dsize (rev h') = Z.of_nat (length (concat (map (fun p => d_content (snd p)) (deliveries h')))).
Proof.
  induction h' as [|o h' IH]; [reflexivity|]. cbn [rev]. rewrite dsize_app, IH. clear IH.
  change (o :: h') with ([o] ++ h'). rewrite deliveries_app, map_app, concat_app, app_length.
  destruct o; cbn; try lia. rewrite app_nil_r. lia.
Qed.
End Theorems.

(** * Output of ndncatchunks *)
From Verif Require Import ConsumerModel CatchunksModel CatchunksSpec CatchunksProofs.
Section Output.
Context {W R : Type}.
Variable P : policy W R.
Variable C : aconfig.
Variable es : list aevent.
Notation h := (a_history (a_run P C es)).

Lemma adaptive_prefix_facts h1 h2 chunks :
  h = h1 ++ h2 -> genuine_history chunks h1 ->
  NoDup (map fst (deliveries h1)) /\ (forall k d, In (k, d) (deliveries h1) -> genuine chunks k d).
Proof.
  intros E Hg. split.
  - pose proof (adaptive_once P C es) as H. rewrite E, deliveries_app, map_app in H.
    eapply nodup_app_l; eauto.
  - intros k d H. apply in_deliveries in H. apply in_split in H. destruct H as (a & b & ->).
    apply Hg. apply in_or_app. left.
    apply (adaptive_delivery_genuine P C es a k d (b ++ h2)). rewrite E, <- app_assoc. reflexivity.
Qed.

Lemma adaptive_stdout_prefix h1 h2 chunks :
  h = h1 ++ h2 -> genuine_history chunks h1 -> is_prefix (catchunks_stdout h1) (concat chunks).
Proof. intros E Hg. destruct (adaptive_prefix_facts h1 h2 chunks E Hg). now apply stdout_prefix. Qed.

Lemma adaptive_stdout_complete h1 h2 chunks :
  h = h1 ++ ODone :: h2 -> genuine_history chunks h1 -> catchunks_stdout h1 = concat chunks.
Proof.
  intros E Hg. destruct (adaptive_prefix_facts _ _ chunks E Hg) as [H1 H2].
  apply stdout_complete; auto.
  destruct (adaptive_done P C es _ _ E) as (n & Hn & Hlen).
  destruct (genuine_known _ _ _ Hg Hn) as [-> Hne]. destruct chunks; [congruence|]. cbn in *. lia.
Qed.

Lemma adaptive_stdout_done chunks :
  In ODone h -> genuine_history chunks h -> catchunks_stdout h = concat chunks.
Proof.
  intros Hd Hg. apply in_split in Hd. destruct Hd as (h1 & h2 & E).
  assert (Hg1 : genuine_history chunks h1).
  { intros seg d H. apply Hg. rewrite E. apply in_or_app. now left. }
  rewrite <- (adaptive_stdout_complete h1 h2 chunks E Hg1).
  unfold catchunks_stdout, catchunks_consumer. rewrite E, deliveries_app. cbn.
  assert (H2 : deliveries h2 = []).
  { pose proof (adaptive_over P C es h1 ODone h2 E eq_refl) as H.
    unfold deliveries. clear -H. induction h2 as [|o h2 IH]; [reflexivity|]. cbn.
    rewrite IH by (intros; apply H; now right). specialize (H o (or_introl eq_refl)).
    destruct o; try reflexivity. discriminate. }
  fold (deliveries h2). rewrite H2, app_nil_r. reflexivity.
Qed.
End Output.
