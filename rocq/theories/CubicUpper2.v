(** An upper bound on the CUBIC window: the invariant. *)
From Verif Require Import Base Double WindowModel WindowProofs WindowTheorems CubicUpperSpec CubicUpper.
From Coq Require Import Reals Lra.
From Flocq Require Import Core BinarySingleNaN.
Local Open Scope R_scope.
Local Notation P2 := (bpow radix2).
Local Ltac zl := first [solve [clear; lia]|lia].

(** what the cubic function and the Reno estimate can add in [x] seconds; this is superadditive *)
Definition grow (x : R) : R := x ^ 3 + 4294967296 * x.
Lemma grow_add a b : 0 <= a -> 0 <= b -> grow a + grow b <= grow (a + b).
Proof. intros Ha Hb. unfold grow. assert (0 <= a * b * (a + b)) by (apply Rmult_le_pos; [apply Rmult_le_pos; lra|lra]). simpl. lra. Qed.
Lemma grow_pos a : 0 <= a -> 0 <= grow a.
Proof. intros Ha. unfold grow. pose proof (pow_le a 3 Ha). lra. Qed.

(** the bound after [n] changes and [t] nanoseconds *)
Definition ceiling (n t : Z) : R := 2199023255552 + 16384 * IZR n + grow (IZR t / 1000000000).
Lemma ceiling_succ n t : ceiling (n + 1) t = ceiling n t + 16384.
Proof. unfold ceiling. rewrite plus_IZR. lra. Qed.
Lemma ceiling_later n t u : (0 <= t <= u)%Z -> ceiling n t + grow (IZR (u - t) / 1000000000) <= ceiling n u.
Proof.
  intros [H1 H2]. unfold ceiling. pose proof (IZR_le _ _ H1). pose proof (IZR_le _ _ H2).
  pose proof (grow_add (IZR t / 1000000000) (IZR (u - t) / 1000000000)) as H3. rewrite minus_IZR in *.
  replace (IZR t / 1000000000 + (IZR u - IZR t) / 1000000000) with (IZR u / 1000000000) in H3 by lra.
  assert (grow (IZR t / 1000000000) + grow ((IZR u - IZR t) / 1000000000) <= grow (IZR u / 1000000000)) by (apply H3; lra). lra.
Qed.
Lemma ceiling_mono n t u : (0 <= t <= u)%Z -> ceiling n t <= ceiling n u.
Proof.
  intros H. pose proof (ceiling_later n t u H). assert (0 <= grow (IZR (u - t) / 1000000000)); [|lra].
  apply grow_pos. assert (0 <= IZR (u - t)) by (apply IZR_le; lia). lra.
Qed.
Lemma ceiling_max n t : (0 <= n <= 4398046511104)%Z -> (0 <= t <= 1000000000000000)%Z -> 2199023255552 <= ceiling n t <= 1152921504600000000.
Proof.
  intros Hn Ht. pose proof (ceiling_mono n t 1000000000000000 Ht) as H. pose proof (ceiling_mono n 0 t ltac:(lia)) as H'.
  destruct Hn as [N1 N2]. apply IZR_le in N1. apply IZR_le in N2. unfold ceiling, grow in *. simpl in *. lra.
Qed.

Section Upper.
Variables cbrt pow3 : f64 -> f64.
Variable o : cubic_opts.
Hypothesis Hroot : root_like cbrt.
Hypothesis Hcube : cube_like pow3.
Hypothesis Hsane : cubic_sane o.
Hypothesis Hmod : cubic_moderate o.

(** after [n] changes, at time [t] *)
Record in_bounds (n t : Z) (w : cwindow) : Prop := {
  bd_ok : cubic_ok o w;
  bd_fin : finite (cw_cwnd w) = true;
  bd_cwnd : val (cw_cwnd w) <= ceiling n t;
  bd_wfin : finite (cw_wmax w) = true;
  bd_wmax : 0 <= val (cw_wmax w) <= ceiling n (cw_lastDecrease w);
  bd_unset : flt (cw_wmax w) (cu_initCwnd o) = true -> val (cw_cwnd w) <= ceiling n (cw_lastDecrease w);
  bd_last : (0 <= cw_lastDecrease w <= t)%Z
}.

Lemma bd_ge1 n t w : in_bounds n t w -> 1 <= val (cw_cwnd w).
Proof.
  intros H. destruct Hsane as [_ S]. destruct (bd_ok _ _ _ H) as [[_ X]|X]; [lra|].
  pose proof (bd_fin _ _ _ H) as F. rewrite X in F. discriminate.
Qed.
Lemma bd_init : in_bounds 0 0 (cubic_init o).
Proof.
  destruct Hsane as [S1 S2]. destruct Hmod as [M1 _]. rewrite p40 in M1.
  assert (Hc : ceiling 0 0 = 2199023255552) by (unfold ceiling, grow; simpl; lra).
  constructor; cbn [cubic_init cw_cwnd cw_wmax cw_lastDecrease]; rewrite ?Hc; try lra; try lia; auto.
  - apply cubic_ok_init; assumption.
  - cbn. lra.
Qed.
Lemma bd_wait n t u w : in_bounds n t w -> (t <= u)%Z -> in_bounds n u w.
Proof.
  intros [] Hu. constructor; auto; [|lia]. eapply Rle_trans; [exact bd_cwnd0|]. apply ceiling_mono. lia.
Qed.

Lemma bd_decrease n t w : (0 <= n < 4398046511104)%Z -> (t <= 1000000000000000)%Z -> in_bounds n t w -> in_bounds (n + 1) t (cubic_decrease o t w).
Proof.
  intros Hn Ht H. pose proof (bd_ge1 _ _ _ H) as Hge. destruct H as [B1 B2 B3 B4 B5 B6 B7].
  pose proof Hsane as [S1 S2]. destruct Hmod as (M1 & M2 & M3). rewrite p40 in M1.
  pose proof (ceiling_max n t ltac:(lia) ltac:(lia)) as Hm. pose proof p61 as E61.
  destruct (cubic_decrease_down o S1 w t B2 ltac:(lra) M2 M3) as [D1 D2].
  assert (Hd : val (cw_cwnd (cubic_decrease o t w)) <= ceiling n t) by (eapply Rle_trans; [exact D2|apply Rmax_lub; lra]).
  assert (HW : finite (cw_wmax (cubic_decrease o t w)) = true /\ 0 <= val (cw_wmax (cubic_decrease o t w)) <= ceiling n t + 1024).
  { unfold cubic_decrease. cbn [cw_wmax]. destruct (_ && _); [|split; [exact B2|lra]].
    destruct (one_plus o M2 M3) as [A1 A2]. set (q := fadd _ _) in *. set (c := cw_cwnd w) in *.
    assert (Hp : 0 <= val c * val q <= 2 * ceiling n t) by (split; [apply Rmult_le_pos; lra|nra]).
    destruct (fmul_ok c q) as [G1 G2]; auto; [apply (small_lo _ 61); [zl|lra]|]. set (p := fmul c q) in *.
    assert (Hpv : 0 <= val p <= 2 * ceiling n t + 512) by (rewrite G2; split; [apply rnd_ge0; lra|apply rnd_up; lra]).
    destruct f2_ok as [F1 F2]. change MIN_SSTHRESH with (f_of_Z 2) in *.
    destruct (fdiv_ok p (f_of_Z 2)) as [Q1 Q2]; auto; [lra|rewrite F2; apply (small_lo _ 61); [zl|lra]|].
    rewrite F2 in Q2. rewrite Q2. split; [exact Q1|]. split; [apply rnd_ge0; lra|].
    replace (ceiling n t + 1024) with (ceiling n t + 512 + 512) by lra. apply rnd_up; lra. }
  destruct HW as [HW1 HW2].
  constructor; change (cw_lastDecrease (cubic_decrease o t w)) with t; rewrite ?ceiling_succ;
    [apply cubic_ok_decrease; assumption|exact D1|lra|exact HW1|lra|intros _; lra|clear - B7; lia].
Qed.

Lemma bd_increase n t r w : (0 <= n < 4398046511104)%Z -> (t <= 1000000000000000)%Z -> usable_rtt r -> in_bounds n t w ->
  in_bounds (n + 1) t (cubic_increase cbrt pow3 o t r w).
Proof.
  intros Hn Ht Hr H. pose proof (bd_ge1 _ _ _ H) as Hge. destruct H as [B1 B2 B3 B4 B5 B6 B7].
  pose proof Hsane as [S1 S2]. destruct Hmod as (M1 & M2 & M3). rewrite p40 in M1.
  pose proof (ceiling_max n t ltac:(lia) ltac:(lia)) as Hm. pose proof p61 as E61.
  pose proof (ceiling_max n (cw_lastDecrease w) ltac:(lia) ltac:(lia)) as Hm'.
  pose proof (cubic_ok_increase cbrt pow3 o S2 w t r B1) as Hok.
  unfold cubic_increase in *. destruct (flt (cw_cwnd w) (cw_ssthresh w)).
  - cbn [cw_cwnd] in *. destruct f1_ok as [F1 F2].
    destruct (fadd_ok (cw_cwnd w) (f_of_Z 1)) as [G1 G2]; auto; [rewrite F2; apply (small_lo _ 61); [zl|lra]|].
    rewrite F2 in G2.
    assert (Hx : val (fadd (cw_cwnd w) (f_of_Z 1)) <= val (cw_cwnd w) + 1 + 512) by (rewrite G2; apply rnd_up; lra).
    constructor; cbn [cw_cwnd cw_wmax cw_lastDecrease]; rewrite ?ceiling_succ; auto; try lra; try lia.
    intros X. specialize (B6 X). lra.
  - cbv zeta in *. set (wmax := if flt (cw_wmax w) (cu_initCwnd o) then cw_cwnd w else cw_wmax w) in *.
    assert (HW : finite wmax = true /\ 0 <= val wmax <= ceiling n (cw_lastDecrease w) /\ flt wmax (cu_initCwnd o) = false).
    { unfold wmax. destruct (flt (cw_wmax w) (cu_initCwnd o)) eqn:E; [|auto]. specialize (B6 eq_refl).
      split; [exact B2|]. split; [lra|]. destruct (flt (cw_cwnd w) (cu_initCwnd o)) eqn:E2; [|reflexivity].
      apply flt_ok in E2; auto. destruct B1 as [[_ X]|X]; [lra|]. rewrite X in B2. discriminate. }
    destruct HW as (W1 & W2 & W3). clearbody wmax.
    assert (Hd : (0 <= t - cw_lastDecrease w <= 1000000000000000)%Z) by lia.
    pose proof (ceiling_later n _ _ B7) as HL. unfold grow in HL.
    set (d := (t - cw_lastDecrease w)%Z) in *.
    destruct (w_cubic_ok cbrt pow3 o Hroot Hcube M2 M3 wmax d W1 ltac:(lra) Hd) as [X1 X2].
    destruct (w_est_ok o M2 M3 wmax d r W1 ltac:(lra) Hd Hr) as [Y1 Y2].
    match goal with |- context [fsub (fmax ?a ?b) _] => set (wc := a) in *; set (we := b) in * end.
    assert (H0 : 0 <= IZR d / 1000000000) by (destruct Hd as [Q _]; apply IZR_le in Q; lra).
    pose proof (pow_le _ 3 H0) as H3. set (x := IZR d / 1000000000) in *. set (c3 := x ^ 3) in *. clearbody c3.
    set (g := ceiling n t + 2560).
    destruct (fmax_le wc we g X1 Y1) as [T1 T2]; [unfold g; lra|unfold g; lra|].
    assert (T3 : - P2 201 <= val (fmax wc we)) by (unfold fmax; destruct (flt wc we); lra).
    destruct (adapt_ok (fmax wc we) (cw_cwnd w) g T1 ltac:(lra) ltac:(unfold g; lra) B2 ltac:(lra)) as [Z1 Z2].
    assert (Z3 : Rmax (val (cw_cwnd w)) g <= ceiling n t + 2560) by (apply Rmax_lub; unfold g; lra).
    constructor; cbn [cw_cwnd cw_wmax cw_lastDecrease] in *; rewrite ?ceiling_succ;
      [exact Hok|exact Z1|clear - Z2 Z3; lra|exact W1|clear - W2; lra|intros X; rewrite W3 in X; discriminate|exact B7].
Qed.

(** ** Any changes in order *)
Lemma bd_run ops : forall n t w, (0 <= n)%Z -> (n + Z.of_nat (length ops) <= 4398046511104)%Z -> (t <= 1000000000000000)%Z ->
  in_bounds n t w -> timely t ops -> exists u, (u <= 1000000000000000)%Z /\ in_bounds (n + Z.of_nat (length ops)) u
    (fold_left (fun w op => match op with Increase t r => cubic_increase cbrt pow3 o t r w | Decrease t => cubic_decrease o t w end) ops w).
Proof.
  induction ops as [|op ops IH]; intros n t w H0 Hn Ht Hw Hops.
  - exists t. split; [exact Ht|]. cbn [length fold_left]. now rewrite Z.add_0_r.
  - cbn [length fold_left] in *. replace (n + Z.of_nat (S (length ops)))%Z with (n + 1 + Z.of_nat (length ops))%Z by lia.
    destruct op as [now r|now]; cbn [timely] in Hops.
    + destruct Hops as (H1 & H2 & H3). apply (IH _ now); auto; try lia.
      apply bd_increase; auto; try lia. now apply (bd_wait n t).
    + destruct Hops as (H1 & H3). apply (IH _ now); auto; try lia.
      apply bd_decrease; auto; try lia. apply (bd_wait n t); [exact Hw|lia].
Qed.
Lemma bounded_below n t w : (0 <= n <= 4398046511104)%Z -> (t <= 1000000000000000)%Z -> in_bounds n t w ->
  is_finite (cw_cwnd w) = true /\ B2R (cw_cwnd w) < P2 60 /\ (1 <= to_int64 (cw_cwnd w) < 1152921504606846976)%Z.
Proof.
  intros Hn Ht H. pose proof (bd_ge1 _ _ _ H) as Hge. pose proof (bd_last _ _ _ H) as B7.
  pose proof (ceiling_max n t Hn ltac:(lia)) as Hm. pose proof (bd_cwnd _ _ _ H). pose proof (bd_fin _ _ _ H) as F.
  assert (Hlt : val (cw_cwnd w) < P2 60) by (change (P2 60) with 1152921504606846976; lra).
  split; [exact F|]. split; [exact Hlt|].
  destruct (f_me_ok 1 63) as [F1 F2]. { unfold small. rewrite Rmult_1_l, Rabs_pos_eq by apply bpow_ge_0. apply bpow_le. lia. }
  rewrite rnd_scaled, Rmult_1_l in F2 by lia.
  destruct (to_int64_ok (cw_cwnd w) 1) as [K1 K2]; [lia|left; split; [exact F|exact Hge]| |].
  { apply flt_ok; auto. rewrite F2, p63. change (P2 60) with 1152921504606846976 in Hlt. lra. }
  split; [exact K1|]. pose proof (trunc_below (cw_cwnd w) 1152921504606846976 F Hlt ltac:(lra)) as K3.
  unfold to_int64 in *. destruct (_ && _); lia.
Qed.
Lemma cubic_upper ops : timely 0 ops -> (Z.of_nat (length ops) <= 4398046511104)%Z ->
  is_finite (cw_cwnd (cubic_run cbrt pow3 o ops)) = true /\ B2R (cw_cwnd (cubic_run cbrt pow3 o ops)) < P2 60 /\
  (1 <= to_int64 (cw_cwnd (cubic_run cbrt pow3 o ops)) < 1152921504606846976)%Z.
Proof.
  intros Ht Hn. destruct (bd_run ops 0 0 (cubic_init o)) as (u & Hu & H); auto; try lia; [apply bd_init|].
  apply (bounded_below (0 + Z.of_nat (length ops)) u); auto. lia.
Qed.
End Upper.
