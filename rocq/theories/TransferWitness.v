(** Schedules for the examples of C65: losses, then success. *)
From Verif Require Import Base BaseFacts PipelineBase PipelineSpec ProgressSpec FetcherModel AdaptiveModel AdaptiveProofs AdaptiveWindow AdaptiveWitness ProgressWitness AdaptiveLive.
From Verif Require Import FixedModel FixedSpec FixedEndSpec FixedEndWitness CatchunksModel CatchunksSpec CatchunksProofs ExitModel.

(** ** adaptive: the five events of [run3], then only time passes *)
Definition transfer (i : nat) : aevent := nth i run3 (ticking i).
Notation tcfg := (catchunks_config 15 false false).
Lemma transfer_later i : (5 <= i)%nat -> transfer i = ticking i.
Proof. intros H. unfold transfer. apply nth_overflow. exact H. Qed.
Lemma transfer_no_cancel i : transfer i <> AeCancel.
Proof.
  do 5 (destruct i as [|i]; [discriminate|]). rewrite transfer_later by lia. unfold ticking. destruct (Nat.even _); discriminate.
Qed.
Lemma elapsed_late m : elapsed (5 + m) transfer + 60 >= elapsed (5 + m) ticking.
Proof.
  induction m as [|m IH]; [vm_compute; discriminate|]. rewrite Nat.add_succ_r, !elapsed_S, transfer_later by lia. lia.
Qed.
Lemma transfer_goes_on : keeps_going transfer.
Proof.
  intros m T. destruct (ticking_goes_on (5 + m)%nat (T + 60)) as (j & order & Hj & Ej & HT).
  exists j, order. split; [lia|]. split; [rewrite transfer_later by lia; exact Ej|].
  pose proof (elapsed_late (j - 5)) as H. replace (5 + (j - 5))%nat with j in H by lia. lia.
Qed.
(** a window of at most 100 and at least 1 *)
Definition capped : policy Z unit :=
  Policy 2 tt (fun w => Z.min 100 (Z.max 1 w)) (fun _ _ w => w + 1) (fun _ w => Z.div2 w) (fun _ => 10) (fun _ _ x => x) (fun x => x).
Lemma capped_open C es : open_window (p_floor capped (p_initW capped)) (a_history (a_run capped C es)).
Proof.
  split; [vm_compute; discriminate|]. intros z Hz.
  destruct (win_inv capped C (fun _ x => True)) with (es := es) as [_ H]; [exact I|auto|auto|].
  destruct (H z) as (k & x & _ & _ & ->); [|cbn; lia].
  unfold wins. apply in_flat_map. exists (OWindow z). split; [|now left]. unfold a_history in Hz. now apply in_rev in Hz.
Qed.

Section Stable.
Context {W R : Type}.
Variable P : policy W R.
Definition th (m : nat) : list pobs := a_history (a_run P tcfg (first m transfer)).
Hypothesis Hstop : b_stopping (a_b (a_run P tcfg (first 5 transfer))) = true.

Lemma stopped_silent s e : silent e -> b_stopping (a_b s) = true ->
  b_stopping (a_b (a_step P tcfg s e)) = true /\ a_tr (a_step P tcfg s e) = a_tr s.
Proof using.
  intros He Hs. unfold a_step. destruct (a_crashed s); [auto|]. destruct e; try contradiction; [|cbn; auto].
  destruct (a_timer s); [|auto]. unfold checkRto, isStopping. cbn [set_timer a_b]. rewrite Hs. cbn. auto.
Qed.
Lemma th_end q : th (5 + q) = th 5.
Proof using Hstop.
  unfold th, a_history. f_equal.
  enough (H : b_stopping (a_b (a_run P tcfg (first (5 + q) transfer))) = true /\
              a_tr (a_run P tcfg (first (5 + q) transfer)) = a_tr (a_run P tcfg (first 5 transfer))) by apply H.
  induction q as [|q [IH1 IH2]]; [auto|].
  assert (E : a_run P tcfg (first (5 + S q) transfer) = a_step P tcfg (a_run P tcfg (first (5 + q) transfer)) (transfer (5 + q)%nat)).
  { rewrite Nat.add_succ_r. unfold first, a_run. rewrite seq_S, map_app, fold_left_app. reflexivity. }
  rewrite E, <- IH2. apply stopped_silent; [|exact IH1]. rewrite transfer_later by lia. apply ticking_silent.
Qed.
Lemma th_all (Q : list pobs -> Prop) : Q (th 0) -> Q (th 1) -> Q (th 2) -> Q (th 3) -> Q (th 4) -> Q (th 5) -> forall m, Q (th m).
Proof using Hstop.
  intros H0 H1 H2 H3 H4 H5 m. destruct (Nat.le_gt_cases 5 m) as [H|H].
  - replace m with (5 + (m - 5))%nat by lia. now rewrite th_end.
  - do 5 (destruct m as [|m]; [assumption|]). lia.
Qed.
End Stable.

Lemma not_nacked h : forallb (fun o => match o with OGotNack _ _ => false | _ => true end) h = true -> forall seg rr, ~ refused h seg rr.
Proof. intros H seg rr (_ & _ & Hi). rewrite forallb_forall in H. specialize (H _ Hi). discriminate. Qed.
Lemma losses_all h b : forallb (fun k => count (lost k) h <=? b) (map N.of_nat (seq 0 4)) = true ->
  forallb (fun o => match o with ORto k | OGotExpiry k | OGotNack k _ => N.ltb k 4 | _ => true end) h = true -> 0 <= b ->
  forall seg, count (lost seg) h <= b.
Proof.
  intros H1 H2 Hb seg. destruct (N.ltb_spec seg 4) as [L|L].
  - rewrite forallb_forall in H1. apply Z.leb_le, H1. apply in_map_iff. exists (N.to_nat seg). split; [lia|]. apply in_seq. lia.
  - assert (E : count (lost seg) h = 0); [|lia]. clear - H2 L. induction h as [|o h IH]; [reflexivity|].
    cbn in H2. apply andb_prop in H2. destruct H2 as [H2 H3]. unfold count in *. cbn [filter].
    assert (E : lost seg o = false).
    { destruct o; try reflexivity; try (destruct r; try reflexivity); cbn; apply N.ltb_lt in H2; apply N.eqb_neq; lia. }
    rewrite E. now apply IH.
Qed.

Lemma resends_few h b : count (fun o => match o with OInterest _ r => r | _ => false end) h <= b -> forall seg, count (is_resend seg) h <= b.
Proof.
  intros H seg. eapply Z.le_trans; [|exact H]. apply count_le. intros o _. destruct o; try discriminate. cbn. destruct retx; congruence.
Qed.

(** ** fixed: segment 1 expires once, then everything arrives *)
Definition transferX (i : nat) : xevent :=
  nth i [XeData 0 (dat [1; 2] FbiAbsent); XeTimeout 1; XeData 1 (dat [3; 4] FbiAbsent); XeData 0 (dat [5] (FbiSegment 2))]%N (XeTimeout 0).
Definition xh (m : nat) : list pobs := x_history (x_run (XConfig 2 1 d_appnack) (xfirst m transferX)).
Lemma transferX_no_cancel i : transferX i <> XeCancel.
Proof. do 5 (destruct i as [|i]; [discriminate|]). discriminate. Qed.
Lemma xh_end q : x_run (XConfig 2 1 d_appnack) (xfirst (4 + q) transferX) = x_run (XConfig 2 1 d_appnack) (xfirst 4 transferX).
Proof.
  induction q as [|q IH]; [reflexivity|]. rewrite Nat.add_succ_r, run_S, IH.
  assert (E : transferX (4 + q) = XeTimeout 0) by (destruct q; reflexivity). rewrite E. vm_compute. reflexivity.
Qed.
Lemma xh_all (Q : list pobs -> Prop) : Q (xh 0) -> Q (xh 1) -> Q (xh 2) -> Q (xh 3) -> Q (xh 4) -> forall m, Q (xh m).
Proof.
  intros H0 H1 H2 H3 H4 m. destruct (Nat.le_gt_cases 4 m) as [H|H].
  - unfold xh. replace m with (4 + (m - 4))%nat by lia. rewrite xh_end. exact H4.
  - do 4 (destruct m as [|m]; [assumption|]). lia.
Qed.
Lemma xh_fair m : awaited (xh m) <> [] -> exists j, (m <= j)%nat /\ xh (S j) <> xh j.
Proof.
  assert (Hn : forall a b : list pobs, length a <> length b -> a <> b) by congruence.
  intros H. destruct (Nat.le_gt_cases 4 m) as [L|L].
  - exfalso. apply H. unfold xh. replace m with (4 + (m - 4))%nat by lia. rewrite xh_end. vm_compute. reflexivity.
  - exists m. split; [lia|]. apply Hn. do 4 (destruct m as [|m]; [vm_compute; discriminate|]). lia.
Qed.
Lemma lossesX_all h b : forallb (fun k => (count (nack_for k) h <=? b) && (count (expiry_for k) h <=? b)) (map N.of_nat (seq 0 4)) = true ->
  forallb (fun o => match o with OGotExpiry k | OGotNack k _ => N.ltb k 4 | _ => true end) h = true -> 0 <= b ->
  forall seg, count (nack_for seg) h <= b /\ count (expiry_for seg) h <= b.
Proof.
  intros H1 H2 Hb seg. destruct (N.ltb_spec seg 4) as [L|L].
  - rewrite forallb_forall in H1. rewrite <- !Z.leb_le. apply andb_prop, H1. apply in_map_iff. exists (N.to_nat seg). split; [lia|]. apply in_seq. lia.
  - assert (E : count (nack_for seg) h = 0 /\ count (expiry_for seg) h = 0); [|lia]. clear - H2 L. induction h as [|o h IH]; [split; reflexivity|].
    cbn in H2. apply andb_prop in H2. destruct H2 as [H2 H3]. unfold count in *. cbn [filter].
    assert (E : nack_for seg o = false /\ expiry_for seg o = false).
    { destruct o; try (split; reflexivity); cbn; apply N.ltb_lt in H2; (split; [|]); try reflexivity; apply N.eqb_neq; lia. }
    destruct E as [-> ->]. now apply IH.
Qed.
