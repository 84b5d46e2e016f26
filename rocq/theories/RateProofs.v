(** The rates at which the congestion windows change. *)
From Verif Require Import Base Double WindowModel WindowProofs WindowTheorems RateSpec.
From Coq Require Import Reals Lra.
From Flocq Require Import Core BinarySingleNaN.
Local Open Scope R_scope.

Lemma run_snoc o ops op : aimd_run o (ops ++ [op]) =
  match op with Increase _ _ => aimd_increase o (aimd_run o ops) | Decrease _ => aimd_decrease o (aimd_run o ops) end.
Proof. unfold aimd_run. now rewrite fold_left_app. Qed.
Lemma crun_snoc cbrt pow3 o ops op : cubic_run cbrt pow3 o (ops ++ [op]) =
  match op with Increase t r => cubic_increase cbrt pow3 o t r (cubic_run cbrt pow3 o ops) | Decrease t => cubic_decrease o t (cubic_run cbrt pow3 o ops) end.
Proof. unfold cubic_run. now rewrite fold_left_app. Qed.

Lemma no_decrease_snoc ops op : no_decrease (ops ++ [op]) -> no_decrease ops /\ exists t r, op = Increase t r.
Proof.
  intros H. split.
  - intros t Ht. apply (H t), in_or_app. now left.
  - destruct op as [t r|t]; [eauto|]. exfalso. apply (H t), in_or_app. right. now left.
Qed.
Lemma last_decrease ops t : In (Decrease t) ops -> exists pre t' post, ops = pre ++ Decrease t' :: post /\ no_decrease post.
Proof.
  induction ops as [|op ops IH] using rev_ind; intros Hin; [destruct Hin|].
  destruct op as [u r|u].
  - destruct IH as (pre & t' & post & -> & Hp).
    + apply in_app_or in Hin. destruct Hin as [H|[H|[]]]; [exact H|discriminate].
    + exists pre, t', (post ++ [Increase u r]). split; [now rewrite <- app_assoc|].
      intros v Hv. apply in_app_or in Hv. destruct Hv as [Hv|[Hv|[]]]; [now apply (Hp v)|discriminate].
  - exists ops, u, []. split; [reflexivity|]. intros v [].
Qed.

Lemma val_floor x : finite x = true -> val (ffloor x) = IZR (Zfloor (val x)).
Proof.
  intros Hf. destruct (Bnearbyint_correct 53 1024 _ mode_DN x) as (H1 & _). unfold ffloor. rewrite H1.
  now rewrite round_FIX_IZR.
Qed.
Lemma val_fmax a b : finite a = true -> finite b = true -> finite (fmax a b) = true /\ val (fmax a b) = Rmax (val a) (val b).
Proof.
  intros Ha Hb. unfold fmax. destruct (flt a b) eqn:E.
  - split; [exact Hb|]. apply flt_ok in E; auto. now rewrite Rmax_right by lra.
  - split; [exact Ha|]. rewrite Rmax_left; [reflexivity|]. apply Rnot_lt_le. intros H. apply flt_ok in H; auto. congruence.
Qed.
Lemma val_fmul1 x c : finite x = true -> 0 <= val x -> finite c = true -> 0 <= val c <= 1 ->
  finite (fmul x c) = true /\ val (fmul x c) = rnd (val x * val c).
Proof.
  intros X1 X2 C1 C2. pose proof (Bmult_correct 53 1024 _ _ mode_NE x c) as H. cbn [round_mode] in H.
  assert (Hq : 0 <= val x * val c <= val x) by (split; [apply Rmult_le_pos; lra|nra]).
  assert (Hr : 0 <= rnd (val x * val c) <= val x).
  { split; [apply rnd_ge0, Hq|]. apply Rle_trans with (rnd (val x)); [apply rnd_le, Hq|rewrite rnd_val; lra]. }
  rewrite Rlt_bool_true in H.
  - rewrite X1, C1 in H. destruct H as (H1 & H2 & _). unfold fmul. rewrite H1. auto.
  - rewrite Rabs_pos_eq by apply Hr. eapply Rle_lt_trans; [apply Hr|]. apply Rle_lt_trans with (Rabs (val x)); [apply Rle_abs|]. apply abs_B2R_lt_emax.
Qed.

(** * AIMD *)
Section A.
Variable o : aimd_opts.
Hypothesis HS : aimd_sane o.
Hypothesis HM : aimd_moderate o.
Notation cw ops := (w_cwnd (aimd_run o ops)).
Notation few ops := (Z.of_nat (length ops) <= 4398046511104)%Z.

Lemma aimd_fin ops : few ops -> finite (cw ops) = true /\ 1 <= val (cw ops) <= bpow radix2 63.
Proof.
  intros Hn. destruct HS as (S1 & S2 & S3 & S4), HM as (M1 & M2 & M3 & M4).
  destruct (below_run o S1 S2 S3 S4 M1 M2 M3 M4 ops Hn) as [B1 B2]. pose proof (aimd_ok_run o S1 S2 S3 S4 ops) as Hok.
  split; [exact B1|]. split.
  - destruct Hok as [[_ H]|H]; [|rewrite H in B1; discriminate]. pose proof (lo_ge1 o S2). lra.
  - eapply Rle_trans; [exact B2|]. eapply Rle_trans; [apply (hi_mono o S1 S3 M3 _ _ Hn)|]. unfold hi.
    change (IZR (1048576 + 4398046511104)) with (IZR 4398047559680). change (bpow radix2 63) with (IZR 9223372036854775808). change (bpow radix2 20) with (IZR 1048576). rewrite <- mult_IZR. apply IZR_le. lia.
Qed.

Lemma small63 x : 0 <= x <= bpow radix2 64 -> small x.
Proof. intros H. unfold small. rewrite Rabs_pos_eq by lra. apply Rle_trans with (bpow radix2 64); [lra|]. apply bpow_le. lia. Qed.

Lemma aimd_slow ops t r : few ops -> flt (cw ops) (w_ssthresh (aimd_run o ops)) = true ->
  finite (cw (ops ++ [Increase t r])) = true /\ exponential_growth (val (ai_step o)) (val (cw ops)) (val (cw (ops ++ [Increase t r]))).
Proof.
  intros Hn Hs. rewrite run_snoc. unfold aimd_increase. rewrite Hs. cbn [w_cwnd].
  destruct (aimd_fin ops Hn) as [H1 H2]. destruct HS as (S1 & S2 & S3 & S4), HM as (M1 & M2 & M3 & M4).
  apply fadd_ok; auto. apply small63. split; [lra|].
  change (bpow radix2 64) with (2 * bpow radix2 63). assert (bpow radix2 20 <= bpow radix2 63) by (apply bpow_le; lia). lra.
Qed.
Lemma aimd_avoid ops t r : few ops -> flt (cw ops) (w_ssthresh (aimd_run o ops)) = false ->
  finite (cw (ops ++ [Increase t r])) = true /\ linear_growth (val (ai_step o)) (val (cw ops)) (val (cw (ops ++ [Increase t r]))).
Proof.
  intros Hn Hs. rewrite run_snoc. unfold aimd_increase. rewrite Hs. cbn [w_cwnd].
  destruct (aimd_fin ops Hn) as [H1 H2]. destruct HS as (S1 & S2 & S3 & S4), HM as (M1 & M2 & M3 & M4).
  assert (F1 : 1 <= val (ffloor (cw ops))).
  { rewrite val_floor by exact H1. apply IZR_le. apply Zfloor_lub. lra. }
  destruct (div_below o S1 S3 M3 (ai_step o) (ffloor (cw ops)) S3 (conj S4 M2) (floor_fin _ H1) F1) as [D1 D2].
  assert (E : val (fdiv (ai_step o) (ffloor (cw ops))) = rnd (val (ai_step o) / IZR (Zfloor (val (cw ops))))).
  { rewrite <- val_floor by exact H1. apply fdiv_ok; auto; [lra|]. 
    assert (Hq : 0 <= val (ai_step o) / val (ffloor (cw ops)) <= bpow radix2 20).
    { split; [apply Rle_mult_inv_pos; lra|]. apply Rle_trans with (val (ai_step o)); [|exact M2].
      apply Rmult_le_reg_r with (val (ffloor (cw ops))); [lra|]. unfold Rdiv. rewrite Rmult_assoc, Rinv_l by lra. nra. }
    apply small63. split; [apply Hq|]. eapply Rle_trans; [apply Hq|]. apply bpow_le. lia. }
  destruct (fadd_ok (cw ops) (fdiv (ai_step o) (ffloor (cw ops))) H1 D1) as [A1 A2].
  - apply small63. split; [lra|]. change (bpow radix2 64) with (2 * bpow radix2 63).
    assert (bpow radix2 20 <= bpow radix2 63) by (apply bpow_le; lia). lra.
  - split; [exact A1|]. rewrite A2, E. reflexivity.
Qed.

Lemma ssthresh_init ops : no_decrease ops -> w_ssthresh (aimd_run o ops) = ai_initSsthresh o.
Proof.
  induction ops as [|op ops IH] using rev_ind; intros H; [reflexivity|]. apply no_decrease_snoc in H.
  destruct H as (H & t & r & ->). rewrite run_snoc. unfold aimd_increase. destruct (flt _ _); now apply IH.
Qed.
Lemma ssthresh_after pre t post : no_decrease post ->
  w_ssthresh (aimd_run o (pre ++ Decrease t :: post)) = w_ssthresh (aimd_run o (pre ++ [Decrease t])).
Proof.
  induction post as [|op post IH] using rev_ind; intros H; [reflexivity|]. apply no_decrease_snoc in H.
  destruct H as (H & u & r & ->). rewrite (app_comm_cons post [_] (Decrease t)), app_assoc, run_snoc.
  unfold aimd_increase. destruct (flt _ _); now apply IH.
Qed.

(** the threshold set by a decrease *)
Lemma aimd_threshold ops t : few ops -> 0 <= val (ai_mdCoef o) ->
  finite (w_ssthresh (aimd_run o (ops ++ [Decrease t]))) = true /\
  val (w_ssthresh (aimd_run o (ops ++ [Decrease t]))) = Rmax 2 (rnd (val (cw ops) * val (ai_mdCoef o))).
Proof.
  intros Hn Hm. rewrite run_snoc. unfold aimd_decrease. cbn [w_ssthresh].
  destruct (aimd_fin ops Hn) as [H1 H2]. destruct HM as (M1 & M2 & M3 & M4). destruct f2_ok as [F1 F2].
  destruct (val_fmul1 (cw ops) (ai_mdCoef o)) as [G1 G2]; auto; [lra|]. rewrite <- F2, <- G2. now apply val_fmax.
Qed.

Lemma aimd_before_decrease ops t r : few ops -> no_decrease ops ->
  let c := cw ops in let c' := cw (ops ++ [Increase t r]) in
  finite c' = true /\
  (flt c (ai_initSsthresh o) = true -> exponential_growth (val (ai_step o)) (val c) (val c')) /\
  (flt c (ai_initSsthresh o) = false -> linear_growth (val (ai_step o)) (val c) (val c')).
Proof.
  intros Hn Hd. cbv zeta. rewrite <- (ssthresh_init ops Hd) at 1 2. destruct (flt _ (w_ssthresh _)) eqn:E.
  - destruct (aimd_slow ops t r Hn E) as [H1 H2]. split; [exact H1|]. split; [auto|discriminate].
  - destruct (aimd_avoid ops t r Hn E) as [H1 H2]. split; [exact H1|]. split; [discriminate|auto].
Qed.
Lemma aimd_after_decrease pre t post u r : few (pre ++ Decrease t :: post) -> 0 <= val (ai_mdCoef o) -> no_decrease post ->
  let c := cw (pre ++ Decrease t :: post) in let c' := cw ((pre ++ Decrease t :: post) ++ [Increase u r]) in
  let thr := Rmax 2 (nearest (val (cw pre) * val (ai_mdCoef o))) in
  finite c' = true /\
  (val c < thr -> exponential_growth (val (ai_step o)) (val c) (val c')) /\
  (thr <= val c -> linear_growth (val (ai_step o)) (val c) (val c')).
Proof.
  intros Hn Hm Hd. cbv zeta. assert (Hp : few pre) by (rewrite app_length in Hn; cbn [length] in Hn; lia).
  destruct (aimd_threshold pre t Hp Hm) as [T1 T2]. rewrite <- (ssthresh_after pre t post Hd) in T1, T2.
  destruct (aimd_fin _ Hn) as [C1 C2]. unfold nearest. rewrite <- T2.
  destruct (flt (cw (pre ++ Decrease t :: post)) (w_ssthresh (aimd_run o (pre ++ Decrease t :: post)))) eqn:E.
  - destruct (aimd_slow _ u r Hn E) as [H1 H2]. split; [exact H1|]. split; [auto|].
    apply flt_ok in E; auto. intros H. lra.
  - destruct (aimd_avoid _ u r Hn E) as [H1 H2]. split; [exact H1|]. split; [|auto].
    intros H. apply (flt_ok _ _ C1 T1) in H. congruence.
Qed.
Lemma aimd_decrease_val ops t : few ops -> 0 <= val (ai_mdCoef o) ->
  let c' := cw (ops ++ [Decrease t]) in
  (ai_reset o = false -> finite c' = true /\ val c' = Rmax 2 (nearest (val (cw ops) * val (ai_mdCoef o)))) /\
  (ai_reset o = true -> c' = ai_initCwnd o).
Proof.
  intros Hn Hm. cbv zeta. pose proof (aimd_threshold ops t Hn Hm) as H. rewrite run_snoc in *. unfold aimd_decrease in *. cbn [w_cwnd w_ssthresh] in *.
  split; intros ->; auto.
Qed.

(** no increase lowers the window *)
Lemma aimd_up ops t r : few ops -> few (ops ++ [Increase t r]) -> val (cw ops) <= val (cw (ops ++ [Increase t r])).
Proof.
  intros H1 H2. destruct HS as (S1 & S2 & S3 & S4). rewrite run_snoc. apply fle_ok.
  - apply aimd_fin, H1.
  - change (aimd_increase o (aimd_run o ops)) with (match Increase t r with Increase _ _ => aimd_increase o (aimd_run o ops) | Decrease _ => aimd_decrease o (aimd_run o ops) end). rewrite <- run_snoc. apply aimd_fin, H2.
  - now apply aimd_increase_up.
Qed.
Lemma few_app (a b : list wop) : few (a ++ b) -> few a.
Proof. rewrite app_length. lia. Qed.
Lemma aimd_up_many ops post : few (ops ++ post) -> no_decrease post -> val (cw ops) <= val (cw (ops ++ post)).
Proof.
  induction post as [|op post IH] using rev_ind; intros Hn Hd; [rewrite app_nil_r; lra|].
  apply no_decrease_snoc in Hd. destruct Hd as (Hd & t & r & ->). rewrite app_assoc in *.
  eapply Rle_trans; [apply IH; [eapply few_app, Hn|exact Hd]|]. apply aimd_up; [eapply few_app, Hn|exact Hn].
Qed.

Lemma aimd_past ops t : few ops -> 0 <= val (ai_mdCoef o) -> ai_reset o = false -> In (Decrease t) ops ->
  flt (cw ops) (w_ssthresh (aimd_run o ops)) = false.
Proof.
  intros Hn Hm Hr Hin. destruct (last_decrease ops t Hin) as (pre & t' & post & -> & Hd).
  assert (Hp : few pre) by (eapply few_app, Hn).
  destruct (aimd_threshold pre t' Hp Hm) as [T1 T2]. rewrite <- (ssthresh_after pre t' post Hd) in T1, T2.
  destruct (aimd_decrease_val pre t' Hp Hm) as [H _]. destruct (H Hr) as [_ E]. unfold nearest in E. rewrite <- E in T2.
  change (Decrease t' :: post) with ([Decrease t'] ++ post) in *. rewrite app_assoc in *.
  pose proof (aimd_up_many _ post Hn Hd) as Hup. destruct (flt _ _) eqn:EF; [|reflexivity].
  apply flt_ok in EF; auto; [lra|apply aimd_fin, Hn].
Qed.
Lemma aimd_linear_forever ops t u r : few ops -> 0 <= val (ai_mdCoef o) -> ai_reset o = false -> In (Decrease t) ops ->
  let c := cw ops in let c' := cw (ops ++ [Increase u r]) in
  finite c' = true /\ linear_growth (val (ai_step o)) (val c) (val c').
Proof. intros Hn Hm Hr Hin. cbv zeta. apply aimd_avoid; [exact Hn|]. now apply (aimd_past ops t). Qed.

(** ** One round trip *)
Notation st := (val (ai_step o)).
Lemma linear_bound n c c' x : (1 <= n)%Z -> IZR n <= c -> c <= bpow radix2 63 -> st = 0 \/ bpow radix2 (-900) <= st ->
  linear_growth st c c' -> c <= x -> c' <= (x + st / IZR n * (1 + u64f)) * (1 + u64f).
Proof.
  intros Hn Hc Hmax Hst -> Hx. destruct HS as (S1 & S2 & S3 & S4). unfold nearest.
  assert (Hf : (n <= Zfloor c)%Z) by now apply Zfloor_lub.
  assert (Hn1 : 1 <= IZR n) by (apply (IZR_le 1); lia).
  assert (Hf1 : IZR n <= IZR (Zfloor c)) by now apply IZR_le.
  assert (Hfc : IZR (Zfloor c) <= bpow radix2 63) by (pose proof (Zfloor_lb c); lra).
  pose proof u64f_bounds as Hu.
  assert (Hd : st / IZR (Zfloor c) <= st / IZR n).
  { unfold Rdiv. apply Rmult_le_compat_l; [exact S4|]. apply Rinv_le; lra. }
  assert (Hd0 : 0 <= st / IZR (Zfloor c)) by (apply Rle_mult_inv_pos; lra).
  assert (Hr1 : rnd (st / IZR (Zfloor c)) <= st / IZR (Zfloor c) * (1 + u64f)).
  { apply rnd_rel_pos. destruct Hst as [-> |Hst]; [left; unfold Rdiv; lra|right].
    apply Rmult_le_reg_r with (IZR (Zfloor c)); [lra|]. unfold Rdiv. rewrite Rmult_assoc, Rinv_l, Rmult_1_r by lra.
    apply Rle_trans with (bpow radix2 (-1022) * bpow radix2 63); [apply Rmult_le_compat_l; [apply bpow_ge_0|exact Hfc]|].
    rewrite <- bpow_plus. eapply Rle_trans; [|exact Hst]. apply bpow_le. lia. }
  assert (Hr0 : 0 <= rnd (st / IZR (Zfloor c))) by now apply rnd_ge0.
  eapply Rle_trans; [apply (rnd_rel_pos (c + rnd (st / IZR (Zfloor c))))|].
  - right. apply Rle_trans with 1; [change 1 with (bpow radix2 0); apply bpow_le; lia|lra].
  - apply Rmult_le_compat_r; [lra|]. apply Rplus_le_compat; [exact Hx|].
    eapply Rle_trans; [exact Hr1|]. apply Rmult_le_compat_r; [lra|exact Hd].
Qed.
Lemma aimd_round_trip ops post n : few (ops ++ post) -> no_decrease post -> st = 0 \/ bpow radix2 (-900) <= st ->
  flt (cw ops) (w_ssthresh (aimd_run o ops)) = false -> n = Zfloor (val (cw ops)) ->
  val (cw (ops ++ post)) <= (val (cw ops) + INR (length post) * (st / IZR n) * (1 + u64f)) * (1 + u64f) ^ length post.
Proof.
  intros Hn Hd Hst Ht ->. set (n := Zfloor (val (cw ops))).
  assert (Ho : few ops) by (eapply few_app, Hn).
  destruct (aimd_fin ops Ho) as [O1 O2].
  assert (Hn1 : (1 <= n)%Z) by (apply Zfloor_lub; lra).
  assert (HN : 1 <= IZR n) by (apply (IZR_le 1); lia).
  pose proof u64f_bounds as Hu. destruct HS as (S1 & S2 & S3 & S4).
  assert (Hq : 0 <= st / IZR n * (1 + u64f)) by (apply Rmult_le_pos; [apply Rle_mult_inv_pos; lra|lra]).
  induction post as [|op post IH] using rev_ind.
  - rewrite app_nil_r. cbn [length INR pow]. lra.
  - apply no_decrease_snoc in Hd. destruct Hd as (Hd & t & r & ->). rewrite app_assoc in *.
    assert (Hn' : few (ops ++ post)) by (eapply few_app, Hn). specialize (IH Hn' Hd).
    pose proof (aimd_up_many ops post Hn' Hd) as Hup. destruct (aimd_fin _ Hn') as [F1 F2].
    assert (Ht' : flt (cw (ops ++ post)) (w_ssthresh (aimd_run o (ops ++ post))) = false).
    { assert (E : w_ssthresh (aimd_run o (ops ++ post)) = w_ssthresh (aimd_run o ops)).
      { clear -Hd. induction post as [|op post IH] using rev_ind; [now rewrite app_nil_r|].
        apply no_decrease_snoc in Hd. destruct Hd as (Hd & t & r & ->). rewrite app_assoc, run_snoc.
        unfold aimd_increase. destruct (flt _ _); now apply IH. }
      rewrite E. destruct (flt (cw (ops ++ post)) _) eqn:E2; [|reflexivity]. exfalso.
      destruct (w_ssthresh (aimd_run o ops)) as [s|s| |s m e Hb] eqn:ES.
      - apply flt_ok in E2; auto. apply Bool.not_true_iff_false in Ht. apply Ht. apply flt_ok; auto. lra.
      - destruct s; [destruct (cw (ops ++ post)) as [[]|[]| |[] ? ? ?]; discriminate|].
        destruct (cw ops) as [[]|[]| |[] ? ? ?]; discriminate.
      - destruct (cw (ops ++ post)) as [[]|[]| |[] ? ? ?]; discriminate.
      - apply flt_ok in E2; auto. apply Bool.not_true_iff_false in Ht. apply Ht. apply flt_ok; auto. lra. }
    destruct (aimd_avoid _ t r Hn' Ht') as [_ HL].
    assert (Hc : IZR n <= val (cw (ops ++ post))) by (pose proof (Zfloor_lb (val (cw ops))); unfold n; lra).
    eapply Rle_trans; [apply (linear_bound n _ _ _ Hn1 Hc (proj2 F2) Hst HL IH)|].
    rewrite app_length. cbn [length]. rewrite Nat.add_1_r, S_INR. cbn [pow].
    assert (Hp : 1 <= (1 + u64f) ^ length post) by (apply pow_R1_Rle; lra).
    set (k := INR (length post)) in *. set (p := (1 + u64f) ^ length post) in *. set (q := st / IZR n) in *.
    replace ((val (cw ops) + (k + 1) * q * (1 + u64f)) * ((1 + u64f) * p)) with
      (((val (cw ops) + k * q * (1 + u64f)) * p + q * (1 + u64f) * p) * (1 + u64f)) by ring.
    apply Rmult_le_compat_r; [lra|]. apply Rplus_le_compat_l.
    rewrite <- (Rmult_1_r (q * (1 + u64f))) at 1. apply Rmult_le_compat_l; assumption.
Qed.
Lemma aimd_round_trip' ops t post : few (ops ++ post) -> 0 <= val (ai_mdCoef o) -> ai_reset o = false -> In (Decrease t) ops ->
  no_decrease post -> st = 0 \/ bpow radix2 (-900) <= st -> (Z.of_nat (length post) <= Zfloor (val (cw ops)))%Z ->
  val (cw ops) <= val (cw (ops ++ post)) <= (val (cw ops) + st * (1 + u64f)) * (1 + u64f) ^ length post.
Proof.
  intros Hn Hm Hr Hin Hd Hst Hk. split; [now apply aimd_up_many|].
  assert (Ho : few ops) by (eapply few_app, Hn).
  eapply Rle_trans; [apply (aimd_round_trip ops post _ Hn Hd Hst (aimd_past ops t Ho Hm Hr Hin) eq_refl)|].
  pose proof u64f_bounds as Hu. destruct HS as (S1 & S2 & S3 & S4).
  apply Rmult_le_compat_r; [apply pow_le; lra|]. apply Rplus_le_compat_l. apply Rmult_le_compat_r; [lra|].
  destruct (aimd_fin ops Ho) as [O1 O2]. assert (Hn1 : (1 <= Zfloor (val (cw ops)))%Z) by (apply Zfloor_lub; lra).
  apply (IZR_le 1) in Hn1. rewrite INR_IZR_INZ. apply IZR_le in Hk.
  apply Rmult_le_reg_r with (IZR (Zfloor (val (cw ops)))); [lra|]. unfold Rdiv.
  rewrite !Rmult_assoc, Rinv_l, Rmult_1_r by lra. rewrite (Rmult_comm st). now apply Rmult_le_compat_r.
Qed.
End A.

(** * CUBIC *)
Section C.
Variable cbrt pow3 : f64 -> f64.
Variable o : cubic_opts.
Hypothesis HS : cubic_sane o.
Notation run ops := (cubic_run cbrt pow3 o ops).
Notation cw ops := (cw_cwnd (run ops)).

Lemma cubic_ge1 ops : atleast 1 (cw ops).
Proof. destruct HS as [S1 S2]. eapply atleast_mono; [exact S2|]. now apply cubic_ok_run. Qed.
Lemma cthresh_init ops : no_decrease ops -> cw_ssthresh (run ops) = cu_initSsthresh o.
Proof.
  induction ops as [|op ops IH] using rev_ind; intros H; [reflexivity|]. apply no_decrease_snoc in H.
  destruct H as (H & t & r & ->). rewrite crun_snoc. unfold cubic_increase. destruct (flt (cw ops) _); now apply IH.
Qed.
Lemma cubic_slow ops t r : no_decrease ops -> finite (cw ops) = true -> val (cw ops) <= bpow radix2 1000 ->
  flt (cw ops) (cu_initSsthresh o) = true ->
  finite (cw (ops ++ [Increase t r])) = true /\ exponential_growth 1 (val (cw ops)) (val (cw (ops ++ [Increase t r]))).
Proof.
  intros Hd Hf Hb Hs. rewrite crun_snoc. unfold cubic_increase. rewrite (cthresh_init ops Hd), Hs. cbn [cw_cwnd].
  destruct f1_ok as [F1 F2]. destruct (cubic_ge1 ops) as [[_ H]|H]; [|rewrite H in Hf; discriminate].
  destruct (fadd_ok (cw ops) (f_of_Z 1) Hf F1) as [A1 A2].
  - rewrite F2. unfold small. rewrite Rabs_pos_eq by lra. change (bpow radix2 1023) with (bpow radix2 (1022 + 1)). rewrite bpow_plus.
    assert (bpow radix2 1000 <= bpow radix2 1022) by (apply bpow_le; lia). change (bpow radix2 1) with 2.
    assert (bpow radix2 0 <= bpow radix2 1022) by (apply bpow_le; lia). change (bpow radix2 0) with 1 in *. lra.
  - rewrite F2 in A2. split; [exact A1|exact A2].
Qed.
Lemma cubic_decrease_val ops t : finite (cw ops) = true -> finite (cu_beta o) = true -> 0 <= val (cu_beta o) <= 1 ->
  finite (cw (ops ++ [Decrease t])) = true /\
  val (cw (ops ++ [Decrease t])) = Rmax (val (cu_initCwnd o)) (nearest (val (cw ops) * val (cu_beta o))).
Proof.
  intros Hf B1 B2. rewrite crun_snoc. unfold cubic_decrease. cbn [cw_cwnd]. destruct HS as [S1 S2].
  destruct (cubic_ge1 ops) as [[_ H]|H]; [|rewrite H in Hf; discriminate].
  destruct (val_fmul1 (cw ops) (cu_beta o)) as [G1 G2]; auto; [lra|]. unfold nearest. rewrite <- G2. now apply val_fmax.
Qed.
(** comparisons with +infinity and finite numbers *)
Lemma flt_up a b c : is_nan b = false -> flt a c = false -> fle a b = true -> flt b c = false.
Proof.
  intros Hn H1 H2. destruct (flt b c) eqn:E; [|reflexivity]. exfalso.
  destruct (finite a) eqn:Fa, (finite b) eqn:Fb, (finite c) eqn:Fc.
  1: { apply fle_ok in H2; auto. apply flt_ok in E; auto. apply Bool.not_true_iff_false in H1. apply H1. apply flt_ok; auto. lra. }
  all: destruct a as [[]|[]| |[] ? ? ?]; try discriminate Fa; destruct b as [[]|[]| |[] ? ? ?]; try discriminate;
    destruct c as [[]|[]| |[] ? ? ?]; discriminate.
Qed.
Lemma flt_irrefl a : flt a a = false.
Proof.
  destruct (finite a) eqn:E.
  - destruct (flt a a) eqn:E2; [|reflexivity]. apply flt_ok in E2; auto. lra.
  - destruct a as [|[]| |]; try discriminate; reflexivity.
Qed.
Lemma cubic_past ops t : In (Decrease t) ops -> flt (cw ops) (cw_ssthresh (run ops)) = false.
Proof.
  intros Hin. destruct (last_decrease ops t Hin) as (pre & t' & post & -> & Hd). clear Hin.
  induction post as [|op post IH] using rev_ind.
  - rewrite crun_snoc. unfold cubic_decrease. cbn [cw_cwnd cw_ssthresh]. apply flt_irrefl.
  - apply no_decrease_snoc in Hd. destruct Hd as (Hd & u & r & ->). specialize (IH Hd).
    change (Decrease t' :: post ++ [Increase u r]) with ((Decrease t' :: post) ++ [Increase u r]). rewrite app_assoc.
    assert (E : cw_ssthresh (run ((pre ++ Decrease t' :: post) ++ [Increase u r])) = cw_ssthresh (run (pre ++ Decrease t' :: post))).
    { rewrite crun_snoc. unfold cubic_increase. now destruct (flt (cw _) _). }
    rewrite E. apply (flt_up (cw (pre ++ Decrease t' :: post))); [|exact IH|].
    + apply (atleast_notnan 1), cubic_ge1.
    + now apply cubic_increase_up'.
Qed.

Notation window_before := (reduced_before (fun ops => cw ops)).
Lemma cubic_epoch pre t0 post : no_decrease post ->
  let w := run (pre ++ Decrease t0 :: post) in
  cw_lastDecrease w = t0 /\ cw_lastWmax w = cw pre /\
  (flt (W_max (cu_beta o) (cu_fastConv o) (cw pre) (cw_lastWmax (run pre))) (cu_initCwnd o) = false ->
   cw_wmax w = W_max (cu_beta o) (cu_fastConv o) (cw pre) (cw_lastWmax (run pre))).
Proof.
  cbv zeta. induction post as [|op post IH] using rev_ind; intros Hd.
  - rewrite crun_snoc. repeat apply conj; reflexivity.
  - apply no_decrease_snoc in Hd. destruct Hd as (Hd & u & r & ->). specialize (IH Hd).
    change (Decrease t0 :: post ++ [Increase u r]) with ((Decrease t0 :: post) ++ [Increase u r]). rewrite app_assoc, crun_snoc.
    unfold cubic_increase. destruct (flt (cw (pre ++ Decrease t0 :: post)) _); [exact IH|]. cbn [cw_lastDecrease cw_lastWmax cw_wmax].
    destruct IH as (I1 & I2 & I3). repeat apply conj; auto. intros H. rewrite I3 by exact H. now rewrite H.
Qed.
Lemma last_wmax pre x : window_before pre x -> cw_lastWmax (run pre) = x.
Proof.
  intros [[Hd ->]|(pre1 & t & post1 & -> & Hd & ->)].
  - induction pre as [|op ops IH] using rev_ind; [reflexivity|]. apply no_decrease_snoc in Hd.
    destruct Hd as (Hd & t & r & ->). rewrite crun_snoc. unfold cubic_increase. destruct (flt (cw ops) _); now apply IH.
  - now apply cubic_epoch.
Qed.
Lemma cubic_avoid pre t0 post t r before : no_decrease post -> window_before pre before ->
  let Wm := W_max (cu_beta o) (cu_fastConv o) (cw pre) before in
  flt Wm (cu_initCwnd o) = false ->
  let c := cw (pre ++ Decrease t0 :: post) in
  let elapsed := in_seconds (t - t0) in
  let target := fmax (W_cubic cbrt pow3 (cu_beta o) Wm elapsed) (W_est (cu_beta o) Wm elapsed (in_seconds r)) in
  cw ((pre ++ Decrease t0 :: post) ++ [Increase t r]) = fadd c (fdiv (fmax f0 (fsub target c)) c).
Proof.
  intros Hd Hb. cbv zeta. rewrite <- (last_wmax pre before Hb). intros HW.
  destruct (cubic_epoch pre t0 post Hd) as (E1 & E2 & E3). specialize (E3 HW).
  assert (Hp : flt (cw (pre ++ Decrease t0 :: post)) (cw_ssthresh (run (pre ++ Decrease t0 :: post))) = false).
  { apply (cubic_past _ t0). apply in_or_app. right. now left. }
  rewrite crun_snoc. unfold cubic_increase. rewrite Hp. cbn [cw_cwnd]. rewrite E3, HW, E1. reflexivity.
Qed.
(** nothing happens as long as the target is not above the window *)
Lemma add_zero c d : atleast 1 c -> val (fmax f0 d) = 0 -> finite (fmax f0 d) = true -> finite c = true ->
  finite (fadd c (fdiv (fmax f0 d) c)) = true /\ val (fadd c (fdiv (fmax f0 d) c)) = val c.
Proof.
  intros Hc H0 Hf Hfc. destruct Hc as [[_ Hc]| ->]; [|discriminate].
  assert (Hz : forall x, x = 0 -> small x) by (intros x ->; unfold small; rewrite Rabs_R0; apply bpow_ge_0).
  destruct (fdiv_ok (fmax f0 d) c Hf) as [D1 D2]; [lra|apply Hz; rewrite H0; unfold Rdiv; lra|].
  rewrite H0 in D2. replace (0 / val c) with 0 in D2 by (unfold Rdiv; lra). rewrite rnd_0 in D2.
  pose proof (Bplus_correct 53 1024 _ _ mode_NE c (fdiv (fmax f0 d) c) Hfc D1) as H. cbn [round_mode] in H.
  rewrite D2, Rplus_0_r, rnd_val in H. rewrite Rlt_bool_true in H by apply abs_B2R_lt_emax.
  destruct H as (A1 & A2 & _). auto.
Qed.
Lemma sub_not_above target c : finite c = true -> fle target c = true -> fmax f0 (fsub target c) = f0.
Proof.
  intros Hc Hle. destruct (finite target) eqn:Ft.
  - apply fle_ok in Hle; auto. unfold fmax. destruct (flt f0 (fsub target c)) eqn:E; [exfalso|reflexivity].
    pose proof (Bminus_correct 53 1024 _ _ mode_NE target c Ft Hc) as H. cbn [round_mode] in H.
    assert (Hn : rnd (val target - val c) <= 0) by (rewrite <- rnd_0; apply rnd_le; lra).
    destruct (Rlt_bool_spec (Rabs (rnd (val target - val c))) (bpow radix2 1024)) as [EB|EB].
    + destruct H as (A1 & A2 & _). change (Bminus mode_NE target c) with (fsub target c) in *.
      apply flt_ok in E; auto. rewrite A1 in E. cbn [B2R] in E. change (val f0) with 0 in E. lra.
    + destruct H as (A1 & A2). change (Bminus mode_NE target c) with (fsub target c) in *.
      destruct (Bsign target) eqn:ES.
      * assert (fsub target c = B754_infinity true) as EM by (apply B2SF_inj; exact A1). rewrite EM in E. discriminate.
      * (* target positive, so are c and target - c >= - c *)
        assert (Ht0 : 0 <= val target).
        { destruct target as [s|s| |s m e Hb]; try discriminate; cbn [B2R]; [lra|]. cbn in ES. subst s. apply F2R_ge_0. cbn. lia. }
        assert (Rabs (rnd (val target - val c)) <= Rabs (val c)).
        { rewrite Rabs_left1 by exact Hn. rewrite Rabs_pos_eq by lra.
          assert (rnd (- val c) <= rnd (val target - val c)) by (apply rnd_le; lra).
          rewrite round_NE_opp, rnd_val in H. lra. }
        pose proof (abs_B2R_lt_emax 53 1024 c). lra.
  - destruct target as [|[]| |]; try discriminate.
    all: destruct c as [[]|[]| |[] ? ? ?]; try discriminate; reflexivity.
Qed.
Lemma cubic_plateau target c : atleast 1 c -> finite c = true -> fle target c = true ->
  finite (fadd c (fdiv (fmax f0 (fsub target c)) c)) = true /\ val (fadd c (fdiv (fmax f0 (fsub target c)) c)) = val c.
Proof.
  intros H1 Hf Hle. pose proof (sub_not_above target c Hf Hle) as E. apply add_zero; auto; now rewrite E.
Qed.
Lemma cubic_reached ops target : 
  finite (cw ops) = true -> fle target (cw ops) = true ->
  finite (fadd (cw ops) (fdiv (fmax f0 (fsub target (cw ops))) (cw ops))) = true /\
  val (fadd (cw ops) (fdiv (fmax f0 (fsub target (cw ops))) (cw ops))) = val (cw ops).
Proof. apply cubic_plateau, cubic_ge1. Qed.
Lemma cubic_wmax_ok ops before : cu_fastConv o = false ->
  flt (W_max (cu_beta o) (cu_fastConv o) (cw ops) before) (cu_initCwnd o) = false.
Proof.
  intros ->. cbn. destruct HS as [S1 S2]. destruct (cubic_ok_run cbrt pow3 o S1 S2 ops) as [[H1 H2]|H].
  - destruct (flt (cw ops) _) eqn:E; [|reflexivity]. apply flt_ok in E; auto. lra.
  - rewrite H. destruct (cu_initCwnd o) as [[]|[]| |[] ? ? ?]; try discriminate; reflexivity.
Qed.
End C.
Lemma cubic_reached' cbrt pow3 o : cubic_sane o ->
  forall (pre : list wop) t0 (post : list wop) t r before, no_decrease post ->
    let window ops := cw_cwnd (cubic_run cbrt pow3 o ops) in
    reduced_before window pre before ->
    let Wm := W_max (cu_beta o) (cu_fastConv o) (window pre) before in
    flt Wm (cu_initCwnd o) = false ->
    let c := window (pre ++ Decrease t0 :: post) in
    let c' := window ((pre ++ Decrease t0 :: post) ++ [Increase t r]) in
    let elapsed := in_seconds (t - t0) in
    finite c = true ->
    fle (fmax (W_cubic cbrt pow3 (cu_beta o) Wm elapsed) (W_est (cu_beta o) Wm elapsed (in_seconds r))) c = true ->
    finite c' = true /\ val c' = val c.
Proof.
  intros HS pre t0 post t r before Hd window Hb Wm HW c c' elapsed Hf Hle. unfold c'.
  pose proof (cubic_avoid cbrt pow3 o HS pre t0 post t r before Hd Hb HW) as E. cbv zeta in E.
  unfold window. rewrite E. now apply (cubic_reached cbrt pow3 o HS).
Qed.
Lemma cubic_wmax_ok' cbrt pow3 o ops before : cubic_sane o -> cu_fastConv o = false ->
  flt (W_max (cu_beta o) (cu_fastConv o) (cw_cwnd (cubic_run cbrt pow3 o ops)) before) (cu_initCwnd o) = false.
Proof. intros HS. now apply cubic_wmax_ok. Qed.
