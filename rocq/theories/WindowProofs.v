(** Bounds on the congestion windows, over all of binary64 including infinities. *)
From Verif Require Import Base Double WindowModel.
From Coq Require Import Reals Lra.
From Flocq Require Import Core BinarySingleNaN.
Local Open Scope R_scope.

(** at least [m], possibly +infinity, not NaN *)
Definition atleast (m : R) (x : f64) : Prop := (finite x = true /\ m <= val x) \/ x = B754_infinity false.

Lemma atleast_mono m m' x : m' <= m -> atleast m x -> atleast m' x.
Proof. intros H [[H1 H2]|H1]; [left; split; [assumption|lra]|now right]. Qed.
Lemma atleast_fle a x : finite a = true -> (fle a x = true <-> atleast (val a) x).
Proof.
  intros Ha. split.
  - intros H. destruct (finite x) eqn:Ex.
    + left. split; [exact Ex|]. now apply fle_ok.
    + destruct x as [s|s| |s m e Hb]; try discriminate.
      * destruct s; [|now right]. destruct a as [s|s| |s m e Hb]; try discriminate; destruct s; discriminate.
      * destruct a as [s|s| |s m e Hb]; try discriminate; destruct s; discriminate.
  - intros [[H1 H2]| ->]; [now apply fle_ok|]. destruct a as [s|s| |s m e Hb]; try discriminate; destruct s; reflexivity.
Qed.
Lemma atleast_notnan m x : atleast m x -> is_nan x = false.
Proof. intros [[H _]| ->]; [|reflexivity]. destruct x; auto; discriminate. Qed.

Lemma overflow_false (x : f64) : B2SF x = binary_overflow 53 1024 mode_NE false -> x = B754_infinity false.
Proof. intros H. apply B2SF_inj. now rewrite H. Qed.

Lemma pos_sign (x : f64) : finite x = true -> 0 < val x -> Bsign x = false.
Proof.
  intros Hf Hx. destruct x as [s|s| |s m e Hb]; try discriminate; cbn [B2R] in Hx; [lra|]. destruct s; [|reflexivity].
  exfalso. pose proof (F2R_lt_0 radix2 (Float radix2 (Zneg m) e) eq_refl). cbn [SpecFloat.cond_Zopp] in Hx. change (- Zpos m)%Z with (Zneg m) in Hx. lra.
Qed.

(** adding something that is not negative *)
Lemma add_atleast m x y : 0 < m -> atleast m x -> atleast 0 y -> atleast m (fadd x y).
Proof.
  intros Hm [[X1 X2]| ->] Hy.
  - destruct Hy as [[Y1 Y2]| ->].
    + pose proof (Bplus_correct 53 1024 _ _ mode_NE x y X1 Y1) as H. cbn [round_mode] in H.
      destruct (Rlt_bool _ _) eqn:E.
      * destruct H as (H1 & H2 & _). left. split; [exact H2|]. unfold fadd. rewrite H1.
        apply Rle_trans with (rnd (val x)); [rewrite rnd_val; exact X2|]. apply rnd_le. lra.
      * destruct H as (H1 & _). right. apply overflow_false. unfold fadd. rewrite H1. f_equal. apply pos_sign; [exact X1|lra].
    + right. destruct x as [s|s| |s m' e Hb]; try discriminate; reflexivity.
  - right. destruct Hy as [[Y1 Y2]| ->]; [|reflexivity]. destruct y as [s|s| |s m' e Hb]; try discriminate; reflexivity.
Qed.
Lemma add_fle x y : 0 < val x \/ x = B754_infinity false -> is_nan x = false -> atleast 0 y -> fle x (fadd x y) = true.
Proof.
  intros Hx Hn Hy. destruct (finite x) eqn:Ef.
  - destruct Hx as [Hx| ->]; [|discriminate]. apply atleast_fle; [exact Ef|]. apply add_atleast; [exact Hx|left; split; [exact Ef|lra]|exact Hy].
  - assert (x = B754_infinity false) as ->.
    { destruct Hx as [Hx|Hx]; [|exact Hx]. destruct x; try discriminate; cbn in Hx; lra. }
    destruct Hy as [[Y1 Y2]| ->]; [|reflexivity]. destruct y as [s|s| |s m' e Hb]; try discriminate; reflexivity.
Qed.

(** dividing a non-negative finite number by something that is at least 1 *)
Lemma div_nonneg a b : atleast 0 a -> finite a = true -> atleast 1 b -> atleast 0 (fdiv a b).
Proof.
  intros Ha Hf Hb. destruct Ha as [[_ A2]| ->]; [|discriminate]. destruct Hb as [[B1 B2]| ->].
  - assert (Hb0 : val b <> 0) by lra.
    pose proof (Bdiv_correct 53 1024 _ _ mode_NE a b Hb0) as H. cbn [round_mode] in H.
    assert (Hq : 0 <= val a / val b <= val a).
    { split; [apply Rle_mult_inv_pos; lra|]. apply Rmult_le_reg_r with (val b); [lra|]. unfold Rdiv. rewrite Rmult_assoc, Rinv_l by lra. nra. }
    rewrite Rlt_bool_true in H.
    + destruct H as (H1 & H2 & _). left. unfold fdiv. rewrite H1, H2. split; [exact Hf|]. apply rnd_ge0, Hq.
    + rewrite Rabs_pos_eq by apply rnd_ge0, Hq. apply Rle_lt_trans with (val a).
      * apply Rle_trans with (rnd (val a)); [apply rnd_le, Hq|rewrite rnd_val; lra].
      * apply Rle_lt_trans with (Rabs (val a)); [apply Rle_abs|]. apply abs_B2R_lt_emax.
  - left. destruct a as [s|s| |s m' e Hb]; try discriminate; (split; [reflexivity|cbn; lra]).
Qed.
(** dividing +infinity *)
Lemma div_nonneg' a b : atleast 0 a -> finite b = true -> atleast 1 b -> atleast 0 (fdiv a b).
Proof.
  intros Ha Hb Hb1. destruct (finite a) eqn:Ef; [now apply div_nonneg|]. destruct Ha as [[H _]| ->]; [congruence|].
  right. destruct Hb1 as [[_ Hb1]| ->]; [|discriminate]. pose proof (pos_sign b Hb ltac:(lra)) as Hs.
  destruct b as [s|s| |s m e Hbb]; try discriminate; cbn in Hb1; [lra|]. cbn in Hs. subst s. reflexivity.
Qed.

Lemma floor_atleast x : atleast 1 x -> atleast 1 (ffloor x).
Proof.
  intros [[X1 X2]| ->]; [left|right; reflexivity].
  destruct (Bnearbyint_correct 53 1024 _ mode_DN x) as (H1 & H2 & _). unfold ffloor. rewrite H1, H2. split; [exact X1|].
  apply Rle_trans with (round radix2 (FIX_exp 0) (round_mode mode_DN) 1).
  - apply Req_le. symmetry. apply round_generic; auto with typeclass_instances. apply generic_format_FIX. exists (Float radix2 1 0); [unfold F2R; cbn; lra|reflexivity].
  - apply round_le; auto with typeclass_instances.
Qed.

Lemma fmax_atleast m a y : finite a = true -> m <= val a -> atleast m (fmax a y).
Proof.
  intros Ha Hm. unfold fmax. destruct (flt a y) eqn:E; [|left; auto].
  destruct (finite y) eqn:Ey.
  - left. split; [exact Ey|]. apply flt_ok in E; auto. lra.
  - destruct y as [s|s| |s m' e Hb]; try discriminate.
    + destruct s; [|now right]. destruct a as [s|s| |s m' e Hb]; try discriminate; destruct s; discriminate.
    + destruct a as [s|s| |s m' e Hb]; try discriminate; destruct s; discriminate.
Qed.

Lemma f2_ok : finite MIN_SSTHRESH = true /\ val MIN_SSTHRESH = 2.
Proof. apply f_of_Z_exact. lia. Qed.
Lemma f1_ok : finite (f_of_Z 1) = true /\ val (f_of_Z 1) = 1.
Proof. apply f_of_Z_exact. lia. Qed.

(** the number of Interests that the window allows *)
Lemma trunc_atleast x (k : Z) : (0 <= k)%Z -> finite x = true -> IZR k <= val x -> (k <= Btrunc x)%Z.
Proof.
  intros Hk Hf Hx. apply le_IZR. rewrite (Btrunc_correct 53 1024 _ x).
  apply Rle_trans with (round radix2 (FIX_exp 0) Ztrunc (IZR k)).
  - apply Req_le. symmetry. apply round_generic; auto with typeclass_instances.
    apply generic_format_FIX. exists (Float radix2 k 0); [unfold F2R; cbn; lra|reflexivity].
  - apply round_le; auto with typeclass_instances.
Qed.
Lemma trunc_below x (k : Z) : finite x = true -> val x < IZR k -> 0 <= val x -> (Btrunc x < k)%Z.
Proof.
  intros Hf Hx H0. apply lt_IZR. rewrite (Btrunc_correct 53 1024 _ x). eapply Rle_lt_trans; [|exact Hx].
  rewrite round_FIX_IZR. rewrite Ztrunc_floor by exact H0. apply Zfloor_lb.
Qed.
Lemma to_int64_ok x (k : Z) : (0 <= k)%Z -> atleast (IZR k) x -> flt x (f_me 1 63) = true -> (k <= to_int64 x < 9223372036854775808)%Z.
Proof.
  intros Hk Hx Hl. destruct Hx as [[X1 X2]| ->]; [|discriminate].
  destruct (f_me_ok 1 63) as [F1 F2]. { unfold small. rewrite Rmult_1_l, Rabs_pos_eq by apply bpow_ge_0. apply bpow_le. lia. }
  rewrite rnd_scaled, Rmult_1_l in F2 by lia. apply flt_ok in Hl; auto. rewrite F2 in Hl.
  change (bpow radix2 63) with (IZR 9223372036854775808) in Hl.
  assert (H0 : 0 <= val x) by (pose proof (IZR_le 0 k Hk); lra).
  pose proof (trunc_atleast x k Hk X1 X2). pose proof (trunc_below x _ X1 Hl H0).
  unfold to_int64. rewrite X1. destruct (Z.abs (Btrunc x) <? 9223372036854775808)%Z eqn:E; cbn [andb]; lia.
Qed.

(** * AIMD *)
Section Aimd.
Variable o : aimd_opts.
Hypothesis Hinit : finite (ai_initCwnd o) = true.
Hypothesis Hinit1 : 1 <= val (ai_initCwnd o).
Hypothesis Hstep : finite (ai_step o) = true.
Hypothesis Hstep0 : 0 <= val (ai_step o).

Notation lo := (Rmin (val (ai_initCwnd o)) 2).
Lemma lo_ge1 : 1 <= lo.
Proof. apply Rmin_glb; lra. Qed.
Definition aimd_ok (w : window) : Prop := atleast lo (w_cwnd w).

Lemma aimd_ok_init : aimd_ok (aimd_init o).
Proof. left. split; [exact Hinit|apply Rmin_l]. Qed.
Lemma step_nonneg : atleast 0 (ai_step o).
Proof. left. auto. Qed.
Lemma incr_nonneg w : aimd_ok w -> exists d, atleast 0 d /\ w_cwnd (aimd_increase o w) = fadd (w_cwnd w) d.
Proof.
  intros Hw. unfold aimd_increase. destruct (flt _ _).
  - exists (ai_step o). split; [apply step_nonneg|reflexivity].
  - exists (fdiv (ai_step o) (ffloor (w_cwnd w))). split; [|reflexivity].
    apply div_nonneg; [apply step_nonneg|exact Hstep|]. apply floor_atleast. eapply atleast_mono; [apply lo_ge1|exact Hw].
Qed.
Lemma aimd_ok_increase w : aimd_ok w -> aimd_ok (aimd_increase o w).
Proof.
  intros Hw. destruct (incr_nonneg w Hw) as (d & Hd & E). unfold aimd_ok. rewrite E. apply add_atleast; [|exact Hw|exact Hd].
  pose proof lo_ge1. lra.
Qed.
Lemma aimd_ok_decrease w : aimd_ok (aimd_decrease o w).
Proof.
  unfold aimd_decrease, aimd_ok. cbn [w_cwnd]. destruct (ai_reset o).
  - left. split; [exact Hinit|apply Rmin_l].
  - destruct f2_ok as [F1 F2]. apply fmax_atleast; [exact F1|]. rewrite F2. apply Rmin_r.
Qed.
Lemma aimd_ok_run ops : aimd_ok (aimd_run o ops).
Proof.
  unfold aimd_run. assert (H : forall w, aimd_ok w -> aimd_ok (fold_left (fun w op => match op with Increase _ _ => aimd_increase o w | Decrease _ => aimd_decrease o w end) ops w)).
  { induction ops as [|[t r|t] ops IH]; intros w Hw; cbn [fold_left]; [exact Hw| |]; apply IH; [now apply aimd_ok_increase|apply aimd_ok_decrease]. }
  apply H, aimd_ok_init.
Qed.

Lemma aimd_lower ops : is_nan (w_cwnd (aimd_run o ops)) = false /\
  (fle (ai_initCwnd o) (w_cwnd (aimd_run o ops)) = true \/ fle (f_of_Z 2) (w_cwnd (aimd_run o ops)) = true).
Proof.
  pose proof (aimd_ok_run ops) as H. split; [now apply atleast_notnan in H|].
  destruct f2_ok as [F1 F2]. unfold aimd_ok in H. destruct (Rle_dec (val (ai_initCwnd o)) 2) as [Hc|Hc].
  - left. apply atleast_fle; [exact Hinit|]. now rewrite Rmin_left in H by exact Hc.
  - right. apply (atleast_fle MIN_SSTHRESH); [exact F1|]. rewrite Rmin_right in H by lra. now rewrite F2.
Qed.
Lemma ok_pos w : aimd_ok w -> 0 < val (w_cwnd w) \/ w_cwnd w = B754_infinity false.
Proof. intros [[_ H]|H]; [left; pose proof lo_ge1; lra|now right]. Qed.
Lemma aimd_increase_up ops : fle (w_cwnd (aimd_run o ops)) (w_cwnd (aimd_increase o (aimd_run o ops))) = true.
Proof.
  pose proof (aimd_ok_run ops) as H. destruct (incr_nonneg _ H) as (d & Hd & E). rewrite E.
  apply add_fle; [now apply ok_pos|now apply atleast_notnan in H|exact Hd].
Qed.

(** an upper bound that excludes undefined behaviour *)
Hypothesis Hinit40 : val (ai_initCwnd o) <= bpow radix2 40.
Hypothesis Hstep20 : val (ai_step o) <= bpow radix2 20.
Hypothesis Hmd : finite (ai_mdCoef o) = true.
Hypothesis Hmd1 : val (ai_mdCoef o) <= 1.

Definition hi (n : Z) : R := IZR (1048576 + n) * bpow radix2 20.
Definition aimd_below (n : Z) (w : window) : Prop := finite (w_cwnd w) = true /\ val (w_cwnd w) <= hi n.
Lemma hi_init : bpow radix2 40 = hi 0.
Proof. unfold hi. change (IZR (1048576 + 0)) with (bpow radix2 20). now rewrite <- bpow_plus. Qed.
Lemma hi_succ n : hi n + bpow radix2 20 = hi (n + 1).
Proof. unfold hi. rewrite !plus_IZR. lra. Qed.
Lemma hi_mono n m : (n <= m)%Z -> hi n <= hi m.
Proof. intros H. unfold hi. apply Rmult_le_compat_r; [apply bpow_ge_0|]. apply IZR_le. lia. Qed.

Lemma add_below n x y : (0 <= n < 9000000000000000)%Z -> finite x = true -> 1 <= val x <= hi n -> finite y = true -> 0 <= val y <= bpow radix2 20 ->
  finite (fadd x y) = true /\ val (fadd x y) <= hi (n + 1).
Proof.
  intros Hn X1 X2 Y1 Y2.
  assert (Hs : val x + val y <= hi (n + 1)) by (rewrite <- hi_succ; lra).
  assert (Hr : rnd (hi (n + 1)) = hi (n + 1)) by (apply rnd_scaled; lia).
  destruct (fadd_ok x y X1 Y1) as [E1 E2].
  - unfold small. rewrite Rabs_pos_eq by lra. eapply Rle_trans; [exact Hs|]. unfold hi.
    apply Rle_trans with (bpow radix2 60 * bpow radix2 20); [|rewrite <- bpow_plus; apply bpow_le; lia].
    apply Rmult_le_compat_r; [apply bpow_ge_0|]. change (bpow radix2 60) with (IZR 1152921504606846976). apply IZR_le. lia.
  - split; [exact E1|]. rewrite E2, <- Hr. now apply rnd_le.
Qed.
Lemma div_below a b : finite a = true -> 0 <= val a <= bpow radix2 20 -> finite b = true -> 1 <= val b ->
  finite (fdiv a b) = true /\ 0 <= val (fdiv a b) <= bpow radix2 20.
Proof.
  intros A1 A2 B1 B2.
  assert (Hq : 0 <= val a / val b <= bpow radix2 20).
  { split; [apply Rle_mult_inv_pos; lra|]. apply Rle_trans with (val a); [|apply A2]. apply Rmult_le_reg_r with (val b); [lra|]. unfold Rdiv. rewrite Rmult_assoc, Rinv_l by lra. nra. }
  destruct (fdiv_ok a b A1) as [E1 E2]; [lra| |].
  - unfold small. rewrite Rabs_pos_eq by apply Hq. eapply Rle_trans; [apply Hq|]. apply bpow_le. lia.
  - split; [exact E1|]. rewrite E2. split; [apply rnd_ge0, Hq|]. rewrite <- (rnd_bpow 20) by lia. apply rnd_le, Hq.
Qed.
Lemma floor_fin x : finite x = true -> finite (ffloor x) = true.
Proof. intros H. destruct (Bnearbyint_correct 53 1024 _ mode_DN x) as (_ & H2 & _). unfold ffloor. now rewrite H2. Qed.

Lemma below_increase n w : (0 <= n < 9000000000000000)%Z -> aimd_ok w -> aimd_below n w -> aimd_below (n + 1) (aimd_increase o w).
Proof.
  intros Hn Hok [H1 H2]. pose proof lo_ge1.
  assert (Hx : 1 <= val (w_cwnd w)) by (destruct Hok as [[_ H']|H']; [lra|rewrite H' in H1; discriminate]).
  unfold aimd_below, aimd_increase. destruct (flt _ _); cbn [w_cwnd].
  - apply add_below; auto.
  - assert (F1 : 1 <= val (ffloor (w_cwnd w))).
    { destruct (floor_atleast (w_cwnd w)) as [[_ H']|H']; [left; auto|exact H'|]. pose proof (floor_fin _ H1) as G. rewrite H' in G. discriminate. }
    destruct (div_below (ai_step o) (ffloor (w_cwnd w)) Hstep (conj Hstep0 Hstep20) (floor_fin _ H1) F1) as [D1 D2].
    apply add_below; auto.
Qed.
Lemma below_decrease n w : (0 <= n < 9000000000000000)%Z -> aimd_ok w -> aimd_below n w -> aimd_below (n + 1) (aimd_decrease o w).
Proof.
  intros Hn Hok [H1 H2]. pose proof lo_ge1.
  assert (Hx : 1 <= val (w_cwnd w)) by (destruct Hok as [[_ H']|H']; [lra|rewrite H' in H1; discriminate]).
  unfold aimd_below, aimd_decrease. cbn [w_cwnd]. destruct (ai_reset o).
  - split; [exact Hinit|]. eapply Rle_trans; [exact Hinit40|]. rewrite hi_init. apply hi_mono. lia.
  - destruct f2_ok as [F1 F2]. unfold fmax. destruct (flt MIN_SSTHRESH _) eqn:E.
    + assert (Hr : rnd (hi n) = hi n) by (apply rnd_scaled; lia).
      assert (Hb : Rabs (rnd (val (w_cwnd w) * val (ai_mdCoef o))) < bpow radix2 1024 ->
                   finite (fmul (w_cwnd w) (ai_mdCoef o)) = true /\ val (fmul (w_cwnd w) (ai_mdCoef o)) = rnd (val (w_cwnd w) * val (ai_mdCoef o))).
      { intros Hb. pose proof (Bmult_correct 53 1024 _ _ mode_NE (w_cwnd w) (ai_mdCoef o)) as HM. cbn [round_mode] in HM.
        rewrite Rlt_bool_true in HM by exact Hb. rewrite H1, Hmd in HM. unfold fmul. tauto. }
      assert (Hup : rnd (val (w_cwnd w) * val (ai_mdCoef o)) <= hi n).
      { rewrite <- Hr. apply rnd_le. destruct (Rle_dec 0 (val (ai_mdCoef o))) as [Hm|Hm].
        - apply Rle_trans with (val (w_cwnd w) * 1); [apply Rmult_le_compat_l; lra|lra].
        - apply Rle_trans with 0; [nra|lra]. }
      destruct (Rlt_dec (Rabs (rnd (val (w_cwnd w) * val (ai_mdCoef o)))) (bpow radix2 1024)) as [Hlt|Hge].
      * destruct (Hb Hlt) as [G1 G2]. split; [exact G1|]. rewrite G2. eapply Rle_trans; [exact Hup|]. apply hi_mono. lia.
      * exfalso. pose proof (Bmult_correct 53 1024 _ _ mode_NE (w_cwnd w) (ai_mdCoef o)) as HM. cbn [round_mode] in HM.
        rewrite Rlt_bool_false in HM by (apply Rnot_lt_le; exact Hge).
        assert (Hneg : rnd (val (w_cwnd w) * val (ai_mdCoef o)) < 0).
        { destruct (Rlt_dec (rnd (val (w_cwnd w) * val (ai_mdCoef o))) 0) as [|Hp]; [assumption|exfalso]. apply Hge.
          rewrite Rabs_pos_eq by lra. eapply Rle_lt_trans; [exact Hup|]. unfold hi.
          apply Rle_lt_trans with (bpow radix2 60 * bpow radix2 20).
          - apply Rmult_le_compat_r; [apply bpow_ge_0|]. change (bpow radix2 60) with (IZR 1152921504606846976). apply IZR_le. lia.
          - rewrite <- bpow_plus. apply bpow_lt. lia. }
        assert (Hmn : val (ai_mdCoef o) < 0).
        { destruct (Rlt_dec (val (ai_mdCoef o)) 0) as [|Hp]; [assumption|exfalso].
          assert (0 <= rnd (val (w_cwnd w) * val (ai_mdCoef o))) by (apply rnd_ge0; apply Rmult_le_pos; lra). lra. }
        assert (Hs : Bsign (ai_mdCoef o) = true).
        { destruct (ai_mdCoef o) as [s|s| |s m e Hbb]; try discriminate; cbn [B2R] in Hmn; [lra|]. destruct s; [reflexivity|].
          pose proof (F2R_gt_0 radix2 (Float radix2 (Zpos m) e) eq_refl). cbn [SpecFloat.cond_Zopp] in Hmn. lra. }
        rewrite Hs, (pos_sign _ H1) in HM by lra. cbn [xorb] in HM.
        assert (fmul (w_cwnd w) (ai_mdCoef o) = B754_infinity true) as EM by (apply B2SF_inj; exact HM).
        rewrite EM in E. vm_compute in E. discriminate.
    + split; [exact F1|]. rewrite F2. apply Rle_trans with (hi 0); [rewrite <- hi_init; change 2 with (bpow radix2 1); apply bpow_le; lia|]. apply hi_mono. lia.
Qed.
Lemma below_run ops : (Z.of_nat (length ops) <= 4398046511104)%Z -> aimd_below (Z.of_nat (length ops)) (aimd_run o ops).
Proof.
  unfold aimd_run. induction ops as [|op ops IH] using rev_ind; intros Hn.
  - cbn. split; [exact Hinit|]. change (hi (Z.of_nat 0)) with (hi 0). now rewrite <- hi_init.
  - rewrite app_length in *. cbn [length] in *. rewrite fold_left_app. cbn [fold_left].
    replace (Z.of_nat (length ops + 1)) with (Z.of_nat (length ops) + 1)%Z by lia.
    specialize (IH ltac:(lia)). pose proof (aimd_ok_run ops) as Hok. unfold aimd_run in Hok.
    destruct op; [apply below_increase|apply below_decrease]; auto; lia.
Qed.
Lemma aimd_allows ops : (Z.of_nat (length ops) <= 4398046511104)%Z ->
  (1 <= to_int64 (w_cwnd (aimd_run o ops)) < 9223372036854775808)%Z.
Proof.
  intros Hn. destruct (below_run ops Hn) as [H1 H2]. pose proof (aimd_ok_run ops) as Hok.
  apply to_int64_ok; [lia|eapply atleast_mono; [apply lo_ge1|exact Hok]|].
  destruct (f_me_ok 1 63) as [F1 F2]. { unfold small. rewrite Rmult_1_l, Rabs_pos_eq by apply bpow_ge_0. apply bpow_le. lia. }
  rewrite rnd_scaled, Rmult_1_l in F2 by lia. apply flt_ok; auto. rewrite F2.
  eapply Rle_lt_trans; [exact H2|]. apply Rle_lt_trans with (hi 4398046511104); [now apply hi_mono|].
  unfold hi. change (IZR (1048576 + 4398046511104)) with (IZR 4398047559680). change (bpow radix2 63) with (IZR 9223372036854775808). change (bpow radix2 20) with (IZR 1048576). rewrite <- mult_IZR. apply IZR_lt. lia.
Qed.
End Aimd.

(** * A decrease does not raise the window *)
Lemma mul_le1 x c : finite x = true -> 0 <= val x -> finite c = true -> 0 <= val c <= 1 ->
  finite (fmul x c) = true /\ 0 <= val (fmul x c) <= val x.
Proof.
  intros X1 X2 C1 C2. pose proof (Bmult_correct 53 1024 _ _ mode_NE x c) as H. cbn [round_mode] in H.
  assert (Hq : 0 <= val x * val c <= val x) by (split; [apply Rmult_le_pos; lra|nra]).
  assert (Hr : 0 <= rnd (val x * val c) <= val x).
  { split; [apply rnd_ge0, Hq|]. apply Rle_trans with (rnd (val x)); [apply rnd_le, Hq|rewrite rnd_val; lra]. }
  rewrite Rlt_bool_true in H.
  - rewrite X1, C1 in H. destruct H as (H1 & H2 & _). unfold fmul. rewrite H1. auto.
  - rewrite Rabs_pos_eq by apply Hr. eapply Rle_lt_trans; [apply Hr|]. apply Rle_lt_trans with (Rabs (val x)); [apply Rle_abs|]. apply abs_B2R_lt_emax.
Qed.
Lemma fmax_le a y m : finite a = true -> finite y = true -> val a <= m -> val y <= m -> finite (fmax a y) = true /\ val (fmax a y) <= m.
Proof. intros Ha Hy H1 H2. unfold fmax. destruct (flt a y); auto. Qed.

Lemma aimd_decrease_down o w : ai_reset o = false -> finite (w_cwnd w) = true -> 0 <= val (w_cwnd w) ->
  finite (ai_mdCoef o) = true -> 0 <= val (ai_mdCoef o) <= 1 ->
  finite (w_cwnd (aimd_decrease o w)) = true /\ val (w_cwnd (aimd_decrease o w)) <= Rmax 2 (val (w_cwnd w)).
Proof.
  intros Hr H1 H2 M1 M2. unfold aimd_decrease. rewrite Hr. cbn [w_cwnd]. destruct f2_ok as [F1 F2].
  destruct (mul_le1 _ _ H1 H2 M1 M2) as [G1 G2]. apply fmax_le; auto.
  - rewrite F2. apply Rmax_l.
  - eapply Rle_trans; [apply G2|apply Rmax_r].
Qed.

(** * CUBIC *)
Section CubicProofs.
Variable cbrt : f64 -> f64.
Variable pow3 : f64 -> f64.
Variable o : cubic_opts.
Hypothesis Hinit : finite (cu_initCwnd o) = true.
Hypothesis Hinit1 : 1 <= val (cu_initCwnd o).

Definition cubic_ok (w : cwindow) : Prop := atleast (val (cu_initCwnd o)) (cw_cwnd w).

Lemma minus_inf x : fsub x (B754_infinity false) = B754_infinity true \/ fsub x (B754_infinity false) = B754_nan.
Proof. destruct x as [s|s| |s m e Hb]; [left; reflexivity|destruct s; [left|right]; reflexivity|right; reflexivity|left; reflexivity]. Qed.

Lemma incr_increment x c : atleast 1 c -> atleast 0 (fdiv (fmax f0 (fsub x c)) c).
Proof.
  intros Hc. assert (Hn : atleast 0 (fmax f0 (fsub x c))) by (apply fmax_atleast; [reflexivity|cbn; lra]).
  destruct (finite c) eqn:Ec; [now apply div_nonneg'|]. destruct Hc as [[H _]| ->]; [congruence|].
  destruct (minus_inf x) as [-> | ->]; left; (split; [reflexivity|cbn; lra]).
Qed.
Lemma cubic_incr w now srtt : cubic_ok w -> exists d, atleast 0 d /\ cw_cwnd (cubic_increase cbrt pow3 o now srtt w) = fadd (cw_cwnd w) d.
Proof.
  intros Hw. unfold cubic_increase. destruct (flt (cw_cwnd w) (cw_ssthresh w)).
  - exists (f_of_Z 1). split; [|reflexivity]. destruct f1_ok as [F1 F2]. left. split; [exact F1|lra].
  - cbn [cw_cwnd]. eexists. split; [|reflexivity]. apply incr_increment. eapply atleast_mono; [|exact Hw]. exact Hinit1.
Qed.
Lemma cubic_ok_increase w now srtt : cubic_ok w -> cubic_ok (cubic_increase cbrt pow3 o now srtt w).
Proof.
  intros Hw. destruct (cubic_incr w now srtt Hw) as (d & Hd & E). unfold cubic_ok. rewrite E. apply add_atleast; [lra|exact Hw|exact Hd].
Qed.
Lemma cubic_ok_decrease w now : cubic_ok (cubic_decrease o now w).
Proof. unfold cubic_decrease, cubic_ok. cbn [cw_cwnd]. apply fmax_atleast; [exact Hinit|lra]. Qed.
Lemma cubic_ok_init : cubic_ok (cubic_init o).
Proof. left. cbn. split; [exact Hinit|lra]. Qed.
Lemma cubic_ok_run ops : cubic_ok (cubic_run cbrt pow3 o ops).
Proof.
  unfold cubic_run. assert (H : forall w, cubic_ok w -> cubic_ok (fold_left (fun w op => match op with Increase t r => cubic_increase cbrt pow3 o t r w | Decrease t => cubic_decrease o t w end) ops w)).
  { induction ops as [|[t r|t] ops IH]; intros w Hw; cbn [fold_left]; [exact Hw| |]; apply IH; [now apply cubic_ok_increase|apply cubic_ok_decrease]. }
  apply H, cubic_ok_init.
Qed.
Lemma cubic_lower ops : is_nan (cw_cwnd (cubic_run cbrt pow3 o ops)) = false /\
  fle (cu_initCwnd o) (cw_cwnd (cubic_run cbrt pow3 o ops)) = true.
Proof. pose proof (cubic_ok_run ops) as H. split; [now apply atleast_notnan in H|]. now apply atleast_fle. Qed.
Lemma cubic_increase_up ops now srtt :
  fle (cw_cwnd (cubic_run cbrt pow3 o ops)) (cw_cwnd (cubic_increase cbrt pow3 o now srtt (cubic_run cbrt pow3 o ops))) = true.
Proof.
  pose proof (cubic_ok_run ops) as H. destruct (cubic_incr _ now srtt H) as (d & Hd & E). rewrite E.
  apply add_fle; [|now apply atleast_notnan in H|exact Hd]. destruct H as [[_ H]|H]; [left; lra|now right].
Qed.
Lemma cubic_allows ops : flt (cw_cwnd (cubic_run cbrt pow3 o ops)) (f_me 1 63) = true ->
  (1 <= to_int64 (cw_cwnd (cubic_run cbrt pow3 o ops)) < 9223372036854775808)%Z.
Proof. intros Hb. apply to_int64_ok; [lia| |exact Hb]. eapply atleast_mono; [exact Hinit1|apply cubic_ok_run]. Qed.
Lemma cubic_decrease_down w now : finite (cw_cwnd w) = true -> 0 <= val (cw_cwnd w) ->
  finite (cu_beta o) = true -> 0 <= val (cu_beta o) <= 1 ->
  finite (cw_cwnd (cubic_decrease o now w)) = true /\ val (cw_cwnd (cubic_decrease o now w)) <= Rmax (val (cu_initCwnd o)) (val (cw_cwnd w)).
Proof.
  intros H1 H2 M1 M2. unfold cubic_decrease. cbn [cw_cwnd].
  destruct (mul_le1 _ _ H1 H2 M1 M2) as [G1 G2]. apply fmax_le; auto.
  - apply Rmax_l.
  - eapply Rle_trans; [apply G2|apply Rmax_r].
Qed.
End CubicProofs.
