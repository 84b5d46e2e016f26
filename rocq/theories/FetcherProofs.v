From Verif Require Import Base BaseFacts FetcherModel FetcherSpec.

Definition ongoing (c : fconfig) (f : fetcher) (tr : list fobs) : Prop :=
  f_isRunning f = true /\
  Forall (fun o => is_end o = false) tr /\
  f_nNacks f = (if Z.eqb (fc_maxNack c) (-1) then 0 else count is_nack tr) /\
  f_nTimeouts f = (if Z.eqb (fc_maxTimeout c) (-1) then 0 else count is_timeout tr) /\
  (f_nNacks f = 0 \/ f_nNacks f <= fc_maxNack c) /\
  (f_nTimeouts f = 0 \/ f_nTimeouts f <= fc_maxTimeout c) /\
  (forall d, In d (backoffs tr) -> d = 1) /\
  match f_phase f with
  | PhNone => False
  | PhInterest => f_nCong f = 0 /\ count is_interest tr = 1 + count is_nack tr + count is_timeout tr
  | PhTimer => count is_interest tr = count is_nack tr + count is_timeout tr
               /\ exists tr0 d, tr = tr0 ++ [FoBackoff d]
  end.

Definition just (c : fconfig) (h : list fobs) (o : fobs) : Prop :=
  match o with
  | FoDataCb => exists h0, h = h0 ++ [FoGotData]
  | FoFailCb k => justified (fc_maxNack c) (fc_maxTimeout c) h k
  | FoGotCancel => True
  | _ => False
  end.

Definition over (c : fconfig) (f : fetcher) (tr : list fobs) : Prop :=
  f_isRunning f = false /\ f_phase f = PhNone /\
  exists h o rest, tr = h ++ o :: rest /\
    Forall (fun o => is_end o = false) h /\
    Forall (fun o => o = FoGotCancel) rest /\
    just c h o /\
    count is_interest h <= count is_nack h + count is_timeout h + 1 /\
    (0 <= fc_maxNack c -> 0 <= fc_maxTimeout c ->
     count is_interest h <= 1 + fc_maxNack c + fc_maxTimeout c) /\
    (forall d, In d (backoffs h) -> d = 1).

Definition finv c (st : fetcher * list fobs) : Prop := ongoing c (fst st) (snd st) \/ over c (fst st) (snd st).

Lemma backoffs_app h1 h2 : backoffs (h1 ++ h2) = backoffs h1 ++ backoffs h2.
Proof. unfold backoffs. apply flat_map_app. Qed.

Lemma ongoing_bound c f tr : ongoing c f tr ->
  0 <= fc_maxNack c -> 0 <= fc_maxTimeout c ->
  count is_nack tr <= fc_maxNack c /\ count is_timeout tr <= fc_maxTimeout c /\
  count is_interest tr <= 1 + count is_nack tr + count is_timeout tr.
Proof.
  intros (_ & _ & HN & HT & BN & BT & _ & HP) H1 H2.
  destruct (Z.eqb_spec (fc_maxNack c) (-1)); [lia|].
  destruct (Z.eqb_spec (fc_maxTimeout c) (-1)); [lia|].
  destruct (f_phase f); [tauto| |]; destruct HP as [HP1 HP2]; lia.
Qed.

Ltac cnt := rewrite ?count_app, ?count_cons, ?count_nil; cbn [is_interest is_nack is_timeout].

Lemma forall_snoc {A} (P : A -> Prop) l x : Forall P l -> P x -> Forall P (l ++ [x]).
Proof. intros. apply Forall_app. split; [assumption|now constructor]. Qed.

Lemma forall_snoc2 {A} (P : A -> Prop) l x y : Forall P l -> P x -> P y -> Forall P (l ++ [x; y]).
Proof. intros. apply Forall_app. split; [assumption|now repeat constructor]. Qed.

Lemma ongoing_backoff_in c f tr o : ongoing c f tr -> (forall d, o <> FoBackoff d) ->
  forall d, In d (backoffs (tr ++ [o])) -> d = 1.
Proof.
  intros (_ & _ & _ & _ & _ & _ & HB & _) Ho d. rewrite backoffs_app, in_app_iff.
  intros [Hin|Hin]; [now apply HB|].
  destruct o; cbn in Hin; try contradiction. exfalso. eapply Ho. reflexivity.
Qed.

Lemma finv_step c st e : finv c st -> finv c (f_run1 c st e).
Proof.
  destruct st as [f tr]. unfold finv, f_run1. cbn [fst snd].
  intros [Hon|Hov].
  - pose proof Hon as (HR & HE & HN & HT & BN & BT & HB & HP).
    pose proof (count_nonneg is_nack tr) as NN1. pose proof (count_nonneg is_timeout tr) as NN2.
    unfold f_step. destruct e as [|r| | |].
    + (* Data *)
      destruct (f_phase f) eqn:EP; rewrite ?EP in HP; [contradiction| |cbn; rewrite app_nil_r; left; exact Hon].
      unfold prepend, f_handleData. cbn [f_isRunning f_setPhase f_stopped f_hasError].
      unfold f_isRunning in *. cbn. rewrite HR. cbn.
      right. unfold over. cbn. split; [reflexivity|]. split; [reflexivity|].
      exists (tr ++ [FoGotData]), FoDataCb, []. split; [now rewrite <- app_assoc|].
      split; [now apply forall_snoc|]. split; [constructor|]. split; [cbn; eauto|].
      split; [cnt; lia|]. split.
      * intros H1 H2. pose proof (ongoing_bound _ _ _ Hon H1 H2). cnt. lia.
      * intros d. eapply ongoing_backoff_in; [exact Hon|discriminate].
    + (* Nack *)
      destruct (f_phase f) eqn:EP; rewrite ?EP in HP; [contradiction| |cbn; rewrite app_nil_r; left; exact Hon].
      unfold prepend, f_handleNack. cbn [f_isRunning f_setPhase f_stopped f_hasError].
      unfold f_isRunning in *. cbn. rewrite HR. cbn [negb].
      unfold MAX_RETRIES_INFINITE.
      set (f1 := if fc_maxNack c =? -1 then _ else _).
      assert (F1 : f_nNacks f1 = (if fc_maxNack c =? -1 then 0 else count is_nack tr + 1)
                   /\ f_nTimeouts f1 = f_nTimeouts f /\ f_nCong f1 = 0
                   /\ f_stopped f1 = f_stopped f /\ f_hasError f1 = f_hasError f /\ f_phase f1 = PhNone).
      { unfold f1. destruct (fc_maxNack c =? -1) eqn:E; cbn; rewrite HN; intuition lia. }
      destruct F1 as (F1 & F2 & F3 & F4 & F5 & F6). clearbody f1.
      destruct ((f_nNacks f1 <=? fc_maxNack c) || (fc_maxNack c =? -1)) eqn:EL.
      * assert (Hov : forall k, justified (fc_maxNack c) (fc_maxTimeout c) (tr ++ [FoGotNack r]) k ->
             over c (f_setError f1) (tr ++ [FoGotNack r] ++ [FoFailCb k])).
        { intros k Hk. unfold over, f_isRunning, f_setError. cbn.
          split; [apply andb_false_r|]. split; [exact F6|].
          exists (tr ++ [FoGotNack r]), (FoFailCb k), []. split; [now rewrite <- app_assoc|].
          split; [now apply forall_snoc|]. split; [constructor|]. split; [exact Hk|].
          split; [cnt; lia|]. split.
          - intros H1 H2. pose proof (ongoing_bound _ _ _ Hon H1 H2). cnt. lia.
          - intros d. eapply ongoing_backoff_in; [exact Hon|discriminate]. }
        destruct r; cbn [fst snd];
          try (right; apply Hov; cbn; repeat split; try discriminate; now exists tr).
        -- (* congestion *)
           left. unfold f_congestion. rewrite F3.
           change (2 ^ 0) with 1. change (MAX_CONGESTION_BACKOFF_TIME <? 1) with false. cbv iota.
           unfold ongoing, f_isRunning. cbn [f_nNacks f_nTimeouts f_nCong f_stopped f_hasError f_phase fst snd].
           rewrite F4, F5. split; [exact HR|].
           split; [now apply forall_snoc2|].
           split; [rewrite F1; cnt; destruct (fc_maxNack c =? -1); lia|].
           split; [rewrite F2, HT; cnt; destruct (fc_maxTimeout c =? -1); lia|].
           split; [destruct (fc_maxNack c =? -1) eqn:E; lia|].
           split; [rewrite F2; exact BT|].
           split.
           { intros d. rewrite !backoffs_app, !in_app_iff. cbn. intros [H|[H|[]]]; [now apply HB|lia]. }
           split; [cnt; lia|]. exists (tr ++ [FoGotNack NrCongestion]), 1. now rewrite <- app_assoc.
        -- (* duplicate *)
           left. unfold f_expressInterest, ongoing, f_isRunning.
           cbn [f_nNacks f_nTimeouts f_nCong f_stopped f_hasError f_phase fst snd].
           rewrite F4, F5. split; [exact HR|].
           split; [now apply forall_snoc2|].
           split; [rewrite F1; cnt; destruct (fc_maxNack c =? -1); lia|].
           split; [rewrite F2, HT; cnt; destruct (fc_maxTimeout c =? -1); lia|].
           split; [destruct (fc_maxNack c =? -1) eqn:E; lia|].
           split; [rewrite F2; exact BT|].
           split.
           { intros d. rewrite !backoffs_app, !in_app_iff. cbn. intros [H|[]]; now apply HB. }
           split; [reflexivity|]. cnt. lia.
      * right. cbn [fst snd]. unfold over, f_isRunning, f_setError. cbn.
        split; [apply andb_false_r|]. split; [exact F6|].
        exists (tr ++ [FoGotNack r]), (FoFailCb CNackLimit), []. split; [now rewrite <- app_assoc|].
        split; [now apply forall_snoc|]. split; [constructor|].
        apply orb_false_iff in EL. destruct EL as [EL1 EL2]. rewrite EL2 in F1, HN.
        split; [cbn; split; [lia|cnt; lia]|].
        split; [cnt; lia|]. split.
        -- intros H1 H2. pose proof (ongoing_bound _ _ _ Hon H1 H2). cnt. lia.
        -- intros d. eapply ongoing_backoff_in; [exact Hon|discriminate].
    + (* Timeout *)
      destruct (f_phase f) eqn:EP; rewrite ?EP in HP; [contradiction| |cbn; rewrite app_nil_r; left; exact Hon].
      unfold prepend, f_handleTimeout. cbn [f_isRunning f_setPhase f_stopped f_hasError].
      unfold f_isRunning in *. cbn. rewrite HR. cbn [negb].
      unfold MAX_RETRIES_INFINITE.
      set (f1 := if fc_maxTimeout c =? -1 then _ else _).
      assert (F1 : f_nTimeouts f1 = (if fc_maxTimeout c =? -1 then 0 else count is_timeout tr + 1)
                   /\ f_nNacks f1 = f_nNacks f /\ f_nCong f1 = 0
                   /\ f_stopped f1 = f_stopped f /\ f_hasError f1 = f_hasError f /\ f_phase f1 = PhNone).
      { unfold f1. destruct (fc_maxTimeout c =? -1) eqn:E; cbn; rewrite HT; intuition lia. }
      destruct F1 as (F1 & F2 & F3 & F4 & F5 & F6). clearbody f1.
      destruct ((f_nTimeouts f1 <=? fc_maxTimeout c) || (fc_maxTimeout c =? -1)) eqn:EL.
      * left. unfold f_expressInterest, ongoing, f_isRunning.
        cbn [f_nNacks f_nTimeouts f_nCong f_stopped f_hasError f_phase fst snd].
        rewrite F4, F5. split; [exact HR|].
        split; [now apply forall_snoc2|].
        split; [rewrite F2, HN; cnt; destruct (fc_maxNack c =? -1); lia|].
        split; [rewrite F1; cnt; destruct (fc_maxTimeout c =? -1); lia|].
        split; [rewrite F2; exact BN|].
        split; [destruct (fc_maxTimeout c =? -1) eqn:E; lia|].
        split.
        { intros d. rewrite !backoffs_app, !in_app_iff. cbn. intros [H|[]]; now apply HB. }
        split; [reflexivity|]. cnt. lia.
      * right. cbn [fst snd]. unfold over, f_isRunning, f_setError. cbn.
        split; [apply andb_false_r|]. split; [exact F6|].
        exists (tr ++ [FoGotTimeout]), (FoFailCb CTimeoutLimit), []. split; [now rewrite <- app_assoc|].
        split; [now apply forall_snoc|]. split; [constructor|].
        apply orb_false_iff in EL. destruct EL as [EL1 EL2]. rewrite EL2 in F1, HT.
        split; [cbn; split; [lia|cnt; lia]|].
        split; [cnt; lia|]. split.
        -- intros H1 H2. pose proof (ongoing_bound _ _ _ Hon H1 H2). cnt. lia.
        -- intros d. eapply ongoing_backoff_in; [exact Hon|discriminate].
    + (* Timer *)
      destruct (f_phase f) eqn:EP; rewrite ?EP in HP; [contradiction|cbn; rewrite app_nil_r; left; exact Hon|].
      unfold f_expressInterest. left. unfold ongoing. unfold f_isRunning in *.
      cbn [f_nNacks f_nTimeouts f_nCong f_stopped f_hasError f_phase f_setPhase fst snd].
      split; [exact HR|]. split; [now apply forall_snoc|].
      split; [rewrite HN; cnt; destruct (fc_maxNack c =? -1); lia|].
      split; [rewrite HT; cnt; destruct (fc_maxTimeout c =? -1); lia|].
      split; [exact BN|]. split; [exact BT|].
      split; [intros d; eapply ongoing_backoff_in; [exact Hon|discriminate]|].
      split; [reflexivity|]. cnt. lia.
    + (* Cancel *)
      right. unfold f_cancel. rewrite HR. unfold over. unfold f_isRunning in *. cbn.
      split; [reflexivity|]. split; [reflexivity|].
      exists tr, FoGotCancel, []. split; [reflexivity|]. split; [exact HE|]. split; [constructor|].
      split; [exact I|].
      split; [destruct (f_phase f); [tauto| |]; lia|]. split; [|exact HB].
      intros H1 H2. pose proof (ongoing_bound _ _ _ Hon H1 H2). lia.
  - destruct Hov as (HR & HP & h & o & rest & Htr & HE & Hrest & HJ & Hc & HI & HB).
    right. unfold f_step.
    assert (Hsame : forall t', Forall (fun o => o = FoGotCancel) t' -> over c f (tr ++ t')).
    { intros t' Ht'. split; [exact HR|]. split; [exact HP|]. exists h, o, (rest ++ t').
      subst tr. rewrite <- app_assoc. cbn. repeat split; auto. now apply Forall_app. }
    rewrite HP. destruct e; cbn [fst snd]; try (apply Hsame; constructor).
    unfold f_cancel. rewrite HR. cbn [fst snd]. apply Hsame. now repeat constructor.
Qed.

Lemma finv_start c : finv c f_start.
Proof.
  left. unfold ongoing, f_start, f_expressInterest. cbn.
  repeat split; try (now destruct (_ =? _)); try lia; try tauto.
  repeat constructor.
Qed.

Lemma finv_run c es : finv c (f_run c es).
Proof.
  unfold f_run. apply fold_left_inv; [intros; now apply finv_step|apply finv_start].
Qed.

Lemma split_first {A} (p : A -> bool) h1 o1 r1 h2 o2 r2 :
  h1 ++ o1 :: r1 = h2 ++ o2 :: r2 ->
  Forall (fun x => p x = false) h1 -> p o1 = true ->
  p o2 = true -> (exists t, h2 = h1 ++ o1 :: t) \/ (h1 = h2 /\ o1 = o2 /\ r1 = r2).
Proof.
  revert h2. induction h1 as [|x h1 IH]; intros h2 Heq HF Hp1 Hp2.
  - destruct h2 as [|y h2]; cbn in Heq.
    + right. injection Heq as -> ->. auto.
    + left. injection Heq as -> Heq. exists h2. reflexivity.
  - destruct h2 as [|y h2]; cbn in Heq.
    + injection Heq as -> Heq. inversion HF; congruence.
    + injection Heq as -> Heq. inversion HF; subst.
      destruct (IH h2 Heq H2 Hp1 Hp2) as [[t ->]|(-> & -> & ->)].
      * left. now exists t.
      * right. auto.
Qed.

Lemma fetcher_budget_lemma c es :
  0 <= fc_maxNack c -> 0 <= fc_maxTimeout c ->
  count is_interest (snd (f_run c es)) <= 1 + fc_maxNack c + fc_maxTimeout c.
Proof.
  intros H1 H2. destruct (finv_run c es) as [Hon|Hov].
  - pose proof (ongoing_bound _ _ _ Hon H1 H2). lia.
  - destruct Hov as (_ & _ & h & o & rest & -> & _ & Hrest & HJ & Hc & HI & _).
    rewrite count_app, count_cons.
    assert (count is_interest rest = 0).
    { apply count_zero. intros x Hx. rewrite Forall_forall in Hrest. now rewrite (Hrest x Hx). }
    assert (is_interest o = false) by (destruct o; cbn in HJ; tauto || reflexivity).
    rewrite H0. specialize (HI H1 H2). lia.
Qed.

Lemma just_is_end c h o : just c h o -> is_end o = true.
Proof. destruct o; cbn; tauto || reflexivity. Qed.

Lemma fetcher_end_lemma c es h o rest :
  snd (f_run c es) = h ++ o :: rest -> is_end o = true ->
  Forall (fun x => x = FoGotCancel) rest.
Proof.
  intros Htr Ho. destruct (finv_run c es) as [Hon|Hov].
  - destruct Hon as (_ & HE & _). rewrite Htr in HE. apply Forall_app in HE.
    destruct HE as [_ HE]. inversion HE; congruence.
  - destruct Hov as (_ & _ & h' & o' & rest' & Htr' & HE & Hrest & HJ & _).
    rewrite Htr' in Htr.
    destruct (split_first is_end _ _ _ _ _ _ Htr HE (just_is_end _ _ _ HJ) Ho)
      as [[t ->]|(-> & -> & ->)]; [|exact Hrest].
    rewrite <- app_assoc in Htr. cbn in Htr. apply app_inv_head in Htr. injection Htr as ->.
    apply Forall_app in Hrest. destruct Hrest as [_ H]. now inversion H.
Qed.

Lemma fetcher_fail_lemma c es h k rest :
  snd (f_run c es) = h ++ FoFailCb k :: rest ->
  justified (fc_maxNack c) (fc_maxTimeout c) h k.
Proof.
  intros Htr. destruct (finv_run c es) as [Hon|Hov].
  - destruct Hon as (_ & HE & _). rewrite Htr in HE. apply Forall_app in HE.
    destruct HE as [_ HE]. inversion HE. discriminate.
  - destruct Hov as (_ & _ & h' & o' & rest' & Htr' & HE & Hrest & HJ & _).
    rewrite Htr' in Htr.
    destruct (split_first is_end _ _ _ _ _ _ Htr HE (just_is_end _ _ _ HJ) eq_refl)
      as [[t ->]|(-> & -> & ->)]; [|exact HJ].
    rewrite <- app_assoc in Htr. cbn in Htr. apply app_inv_head in Htr. injection Htr as ->.
    apply Forall_app in Hrest. destruct Hrest as [_ H]. inversion H. discriminate.
Qed.

Lemma fetcher_data_lemma c es h rest :
  snd (f_run c es) = h ++ FoDataCb :: rest -> exists h0, h = h0 ++ [FoGotData].
Proof.
  intros Htr. destruct (finv_run c es) as [Hon|Hov].
  - destruct Hon as (_ & HE & _). rewrite Htr in HE. apply Forall_app in HE.
    destruct HE as [_ HE]. inversion HE. discriminate.
  - destruct Hov as (_ & _ & h' & o' & rest' & Htr' & HE & Hrest & HJ & _).
    rewrite Htr' in Htr.
    destruct (split_first is_end _ _ _ _ _ _ Htr HE (just_is_end _ _ _ HJ) eq_refl)
      as [[t ->]|(-> & -> & ->)]; [|exact HJ].
    rewrite <- app_assoc in Htr. cbn in Htr. apply app_inv_head in Htr. injection Htr as ->.
    apply Forall_app in Hrest. destruct Hrest as [_ H]. inversion H. discriminate.
Qed.

Lemma fetcher_retry_lemma c es :
  let tr := snd (f_run c es) in
  Forall (fun o => is_end o = false) tr ->
  (fc_maxNack c <> -1 -> count is_nack tr <= Z.max 0 (fc_maxNack c)) /\
  (fc_maxTimeout c <> -1 -> count is_timeout tr <= Z.max 0 (fc_maxTimeout c)) /\
  (count is_interest tr = 1 + count is_nack tr + count is_timeout tr \/
   count is_interest tr = count is_nack tr + count is_timeout tr /\
   exists h d, tr = h ++ [FoBackoff d]).
Proof.
  cbn zeta. intros HF. destruct (finv_run c es) as [Hon|Hov].
  - destruct Hon as (_ & _ & HN & HT & BN & BT & _ & HP).
    split; [destruct (Z.eqb_spec (fc_maxNack c) (-1)); lia|].
    split; [destruct (Z.eqb_spec (fc_maxTimeout c) (-1)); lia|].
    destruct (f_phase (fst (f_run c es))); [tauto| |].
    + left. tauto.
    + right. tauto.
  - destruct Hov as (_ & _ & h & o & rest & Htr & _ & _ & HJ & _).
    rewrite Htr in HF. apply Forall_app in HF. destruct HF as [_ HF].
    inversion HF; subst. rewrite (just_is_end _ _ _ HJ) in *. discriminate.
Qed.

Lemma fetcher_backoff_lemma c es d : In d (backoffs (snd (f_run c es))) -> d = 1.
Proof.
  destruct (finv_run c es) as [Hon|Hov].
  - destruct Hon as (_ & _ & _ & _ & _ & _ & HB & _). apply HB.
  - destruct Hov as (_ & _ & h & o & rest & -> & _ & Hrest & HJ & _ & _ & HB).
    change (o :: rest) with ([o] ++ rest). rewrite !backoffs_app, !in_app_iff.
    intros [H|[H|H]]; [now apply HB| |].
    + destruct o; cbn in H, HJ; contradiction.
    + exfalso. clear - Hrest H. induction Hrest as [|x l Hx _ IH]; [exact H|]. subst. cbn in H. auto.
Qed.
