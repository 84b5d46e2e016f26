(** The window policies in a running pipeline. *)
From Verif Require Import Base PipelineBase AdaptiveModel AdaptiveWindow Double WindowModel WindowProofs.
From Coq Require Import Reals Lra.
From Flocq Require Import Core BinarySingleNaN.
Local Open Scope R_scope.

(** parameters that make sense *)
Definition aimd_sane (o : aimd_opts) : Prop :=
  is_finite (ai_initCwnd o) = true /\ 1 <= B2R (ai_initCwnd o) /\
  is_finite (ai_step o) = true /\ 0 <= B2R (ai_step o).
Definition aimd_moderate (o : aimd_opts) : Prop :=
  B2R (ai_initCwnd o) <= bpow radix2 40 /\ B2R (ai_step o) <= bpow radix2 20 /\
  is_finite (ai_mdCoef o) = true /\ B2R (ai_mdCoef o) <= 1.
Definition cubic_sane (o : cubic_opts) : Prop :=
  is_finite (cu_initCwnd o) = true /\ 1 <= B2R (cu_initCwnd o).

Lemma below_allows o n w : aimd_sane o -> aimd_moderate o -> (Z.of_nat n <= 4398046511104)%Z ->
  aimd_ok o w -> aimd_below (Z.of_nat n) w -> (1 <= to_int64 (w_cwnd w) < 9223372036854775808)%Z.
Proof.
  intros (S1 & S2 & S3 & S4) (M1 & M2 & M3 & M4) Hn Hok [H1 H2].
  apply to_int64_ok; [lia|eapply atleast_mono; [apply (lo_ge1 o S2)|exact Hok]|].
  destruct (f_me_ok 1 63) as [F1 F2]. { unfold small. rewrite Rmult_1_l, Rabs_pos_eq by apply bpow_ge_0. apply bpow_le. lia. }
  rewrite rnd_scaled, Rmult_1_l in F2 by lia. apply flt_ok; auto. rewrite F2.
  eapply Rle_lt_trans; [exact H2|]. apply Rle_lt_trans with (hi 4398046511104); [now apply (hi_mono o)|].
  unfold hi. change (IZR (1048576 + 4398046511104)) with (IZR 4398047559680). change (bpow radix2 63) with (IZR 9223372036854775808). change (bpow radix2 20) with (IZR 1048576). rewrite <- mult_IZR. apply IZR_lt. lia.
Qed.

Lemma in_wins z t : In z (wins t) <-> In (OWindow z) t.
Proof.
  unfold wins. rewrite in_flat_map. split.
  - intros (x & Hx & Hz). destruct x; try contradiction. destruct Hz as [<-|[]]. exact Hx.
  - intros H. exists (OWindow z). split; [exact H|now left].
Qed.
Lemma wins_length t : length (wins t) = length (filter (fun x => match x with OWindow _ => true | _ => false end) t).
Proof. induction t as [|x t IH]; [reflexivity|]. destruct x; cbn in *; auto. Qed.

Lemma filter_length_rev (A : Type) (f : A -> bool) (l : list A) : length (filter f (rev l)) = length (filter f l).
Proof.
  induction l as [|x l IH]; [reflexivity|]. cbn [rev]. rewrite filter_app, app_length, IH. cbn [filter].
  destruct (f x); cbn [length]; lia.
Qed.
Lemma aimd_pipeline R o (r0 : R) rto sample backoff C es : aimd_sane o -> aimd_moderate o ->
  let h := a_history (a_run (aimd_policy o r0 rto sample backoff) C es) in
  (Z.of_nat (length (filter (fun x => match x with OWindow _ => true | _ => false end) h)) <= 4398046511104)%Z ->
  forall z, In (OWindow z) h -> (1 <= z < 9223372036854775808)%Z.
Proof.
  intros HS HM h Hn z Hz. pose proof HS as (S1 & S2 & S3 & S4). pose proof HM as (M1 & M2 & M3 & M4).
  set (P := aimd_policy o r0 rto sample backoff) in *.
  set (Q := fun (n : nat) w => aimd_ok o w /\ ((Z.of_nat n <= 4398046511104)%Z -> aimd_below (Z.of_nat n) w)).
  destruct (win_inv P C Q) with (es := es) as [_ H].
  - split; [now apply aimd_ok_init|]. intros _. split; [exact S1|]. change (Z.of_nat 0) with 0%Z. rewrite <- hi_init. exact M1.
  - intros n now r w [Q1 Q2]. split; [now apply aimd_ok_increase|]. intros Hle.
    replace (Z.of_nat (S n)) with (Z.of_nat n + 1)%Z by lia. apply below_increase; auto; [lia|apply Q2; lia].
  - intros n now w [Q1 Q2]. split; [now apply aimd_ok_decrease|]. intros Hle.
    replace (Z.of_nat (S n)) with (Z.of_nat n + 1)%Z by lia. apply below_decrease; auto; [lia|apply Q2; lia].
  - unfold h, a_history in Hz, Hn. rewrite <- in_rev in Hz. apply in_wins in Hz.
    destruct (H z Hz) as (n & w & Hle & [Q1 Q2] & ->). rewrite wins_length in Hle.
    rewrite filter_length_rev in Hn.
    assert (Hn' : (Z.of_nat n <= 4398046511104)%Z) by lia.
    exact (below_allows o n w HS HM Hn' Q1 (Q2 Hn')).
Qed.

Lemma cubic_pipeline R cbrt pow3 o (r0 : R) srtt rto sample backoff C es : cubic_sane o ->
  let s := a_run (cubic_policy cbrt pow3 o r0 srtt rto sample backoff) C es in
  is_nan (cw_cwnd (a_cwnd s)) = false /\ fle (cu_initCwnd o) (cw_cwnd (a_cwnd s)) = true.
Proof.
  intros [S1 S2] s. destruct (win_inv (cubic_policy cbrt pow3 o r0 srtt rto sample backoff) C (fun _ w => cubic_ok o w)) with (es := es) as [H _].
  - now apply cubic_ok_init.
  - intros. cbn [p_incr cubic_policy]. now apply cubic_ok_increase.
  - intros. cbn [p_decr cubic_policy]. now apply cubic_ok_decrease.
  - fold s in H. split; [now apply atleast_notnan in H|]. now apply atleast_fle.
Qed.
Lemma aimd_pipeline_lower R o (r0 : R) rto sample backoff C es : aimd_sane o ->
  let s := a_run (aimd_policy o r0 rto sample backoff) C es in
  is_nan (w_cwnd (a_cwnd s)) = false /\
  (fle (ai_initCwnd o) (w_cwnd (a_cwnd s)) = true \/ fle (f_of_Z 2) (w_cwnd (a_cwnd s)) = true).
Proof.
  intros (S1 & S2 & S3 & S4) s. destruct (win_inv (aimd_policy o r0 rto sample backoff) C (fun _ w => aimd_ok o w)) with (es := es) as [H _].
  - now apply aimd_ok_init.
  - intros. cbn [p_incr aimd_policy]. now apply aimd_ok_increase.
  - intros. cbn [p_decr aimd_policy]. now apply aimd_ok_decrease.
  - fold s in H. split; [now apply atleast_notnan in H|].
    destruct f2_ok as [F1 F2]. unfold aimd_ok in H. destruct (Rle_dec (val (ai_initCwnd o)) 2) as [Hc|Hc].
    + left. apply atleast_fle; [exact S1|]. now rewrite Rmin_left in H by exact Hc.
    + right. apply (atleast_fle MIN_SSTHRESH); [exact F1|]. rewrite Rmin_right in H by lra. now rewrite F2.
Qed.

Lemma aimd_lower' o ops : aimd_sane o -> is_nan (w_cwnd (aimd_run o ops)) = false /\
  (fle (ai_initCwnd o) (w_cwnd (aimd_run o ops)) = true \/ fle (f_of_Z 2) (w_cwnd (aimd_run o ops)) = true).
Proof. intros (S1 & S2 & S3 & S4). now apply aimd_lower. Qed.
Lemma aimd_increase_up' o ops : aimd_sane o -> fle (w_cwnd (aimd_run o ops)) (w_cwnd (aimd_run o (ops ++ [Increase 0 0]))) = true.
Proof. intros (S1 & S2 & S3 & S4). unfold aimd_run at 2. rewrite fold_left_app. cbn [fold_left]. now apply aimd_increase_up. Qed.
Lemma aimd_decrease_down' o ops now : aimd_sane o -> aimd_moderate o -> 0 <= B2R (ai_mdCoef o) -> ai_reset o = false ->
  (Z.of_nat (length ops) <= 4398046511104)%Z ->
  is_finite (w_cwnd (aimd_run o (ops ++ [Decrease now]))) = true /\
  B2R (w_cwnd (aimd_run o (ops ++ [Decrease now]))) <= Rmax 2 (B2R (w_cwnd (aimd_run o ops))).
Proof.
  intros (S1 & S2 & S3 & S4) (M1 & M2 & M3 & M4) Hm Hr Hn.
  destruct (below_run o S1 S2 S3 S4 M1 M2 M3 M4 ops Hn) as [B1 B2]. pose proof (aimd_ok_run o S1 S2 S3 S4 ops) as Hok.
  unfold aimd_run in *. rewrite fold_left_app. cbn [fold_left].
  apply aimd_decrease_down; auto. destruct Hok as [[_ H]|H]; [|rewrite H in B1; discriminate]. pose proof (lo_ge1 o S2). lra.
Qed.
Lemma aimd_allows' o ops : aimd_sane o -> aimd_moderate o -> (Z.of_nat (length ops) <= 4398046511104)%Z ->
  (1 <= to_int64 (w_cwnd (aimd_run o ops)) < 9223372036854775808)%Z.
Proof. intros (S1 & S2 & S3 & S4) (M1 & M2 & M3 & M4). now apply aimd_allows. Qed.
Lemma cubic_lower' cbrt pow3 o ops : cubic_sane o -> is_nan (cw_cwnd (cubic_run cbrt pow3 o ops)) = false /\
  fle (cu_initCwnd o) (cw_cwnd (cubic_run cbrt pow3 o ops)) = true.
Proof. intros (S1 & S2). now apply cubic_lower. Qed.
Lemma cubic_increase_up' cbrt pow3 o ops now srtt : cubic_sane o ->
  fle (cw_cwnd (cubic_run cbrt pow3 o ops)) (cw_cwnd (cubic_run cbrt pow3 o (ops ++ [Increase now srtt]))) = true.
Proof. intros (S1 & S2). unfold cubic_run at 2. rewrite fold_left_app. cbn [fold_left]. now apply cubic_increase_up. Qed.
Lemma cubic_allows' cbrt pow3 o ops : cubic_sane o -> flt (cw_cwnd (cubic_run cbrt pow3 o ops)) (f_me 1 63) = true ->
  (1 <= to_int64 (cw_cwnd (cubic_run cbrt pow3 o ops)) < 9223372036854775808)%Z.
Proof. intros (S1 & S2). now apply cubic_allows. Qed.
