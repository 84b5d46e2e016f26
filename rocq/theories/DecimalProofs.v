From Verif Require Import Base PingModel PingProofs DumpModel DumpSpec DumpProofs2 Double ThroughputModel ThroughputProofs DecimalModel DecimalSpec.
From Coq Require Import String Reals Lra Lia.
From Coq Require Import List.
From Flocq Require Import Core BinarySingleNaN Relative.
Import ListNotations.
Local Open Scope R_scope.
Local Open Scope list_scope.

Notation b10 := (bpow radix10).

(** ** rounding of quotients *)
Lemma div_half_even_nearest a b : (0 < b)%Z -> div_half_even a b = ZnearestE (IZR a / IZR b).
Proof.
  intros Hb. pose proof (Z.div_mod a b ltac:(lia)) as E. pose proof (Z.mod_pos_bound a b Hb) as B.
  assert (Hb' : 0 < IZR b) by (apply IZR_lt; lia).
  assert (Fl : Zfloor (IZR a / IZR b) = (a / b)%Z) by (apply Zfloor_div; lia).
  assert (Ea : IZR a / IZR b - IZR (a / b) = IZR (a mod b) / IZR b).
  { rewrite E at 1. rewrite plus_IZR, mult_IZR. field. lra. }
  unfold Znearest. rewrite Fl, Ea. unfold div_half_even.
  assert (C : Zceil (IZR a / IZR b) = if (a mod b =? 0)%Z then (a / b)%Z else (a / b + 1)%Z).
  { destruct (Z.eqb_spec (a mod b) 0) as [Z0|Z0].
    - replace (IZR a / IZR b) with (IZR (a / b)); [apply Zceil_IZR|]. rewrite Z0 in Ea. unfold Rdiv at 2 in Ea. rewrite Rmult_0_l in Ea. lra.
    - apply Zceil_imp. replace (a / b + 1 - 1)%Z with (a / b)%Z by lia. rewrite plus_IZR.
      assert (0 < IZR (a mod b) / IZR b < 1).
      { split; [apply Rdiv_lt_0_compat; [apply IZR_lt; lia|lra]|].
        apply Rmult_lt_reg_r with (IZR b); [lra|]. unfold Rdiv. rewrite Rmult_assoc, Rinv_l, Rmult_1_r, Rmult_1_l by lra. apply IZR_lt. lia. }
      lra. }
  rewrite C.
  assert (K : Rcompare (IZR (a mod b) / IZR b) (/ 2) = Z.compare (2 * (a mod b)) b).
  { rewrite <- (Rcompare_mult_r (2 * IZR b)) by lra.
    replace (IZR (a mod b) / IZR b * (2 * IZR b)) with (IZR (2 * (a mod b))) by (rewrite mult_IZR; field; lra).
    replace (/ 2 * (2 * IZR b)) with (IZR b) by field. apply Rcompare_IZR. }
  rewrite K. destruct (Z.compare_spec (2 * (a mod b)) b) as [H|H|H].
  - destruct (Z.ltb_spec (2 * (a mod b)) b); [lia|]. destruct (Z.ltb_spec b (2 * (a mod b))); [lia|].
    destruct (Z.even (a / b)); cbn [negb]; [reflexivity|]. destruct (Z.eqb_spec (a mod b) 0); lia.
  - destruct (Z.ltb_spec (2 * (a mod b)) b); [reflexivity|lia].
  - destruct (Z.ltb_spec (2 * (a mod b)) b); [lia|]. destruct (Z.ltb_spec b (2 * (a mod b))); [|lia].
    destruct (Z.eqb_spec (a mod b) 0); lia.
Qed.

(** ** the decimal exponent *)
Lemma log10_up_ok fuel : forall a b, (0 < b <= a)%Z -> (a < b * 10 ^ Z.of_nat fuel)%Z ->
  (0 <= log10_up fuel a b)%Z /\ (b * 10 ^ log10_up fuel a b <= a < b * 10 ^ (log10_up fuel a b + 1))%Z.
Proof.
  induction fuel as [|k IH]; intros a b Hb Hf; cbn [log10_up].
  - cbn in Hf. lia.
  - destruct (Z.ltb_spec a (10 * b)) as [L|L]; [cbn; lia|].
    destruct (IH a (10 * b)%Z) as (I0 & I1 & I2); [lia| |].
    + rewrite Nat2Z.inj_succ, Z.pow_succ_r in Hf by lia. lia.
    + set (x := log10_up k a (10 * b)) in *. replace (1 + x + 1)%Z with (Z.succ (x + 1)) by lia. replace (1 + x)%Z with (Z.succ x) by lia.
      rewrite !Z.pow_succ_r by lia. lia.
Qed.
Lemma log10_down_ok fuel : forall a b, (0 < a)%Z -> (a < 10 * b)%Z -> (b <= a * 10 ^ Z.of_nat fuel)%Z ->
  (log10_down fuel a b <= 0)%Z /\ (b <= a * 10 ^ (- log10_down fuel a b) < 10 * b)%Z.
Proof.
  induction fuel as [|k IH]; intros a b Ha Hb Hf; cbn [log10_down].
  - cbn in Hf. cbn. lia.
  - destruct (Z.leb_spec b a) as [L|L]; [cbn; lia|].
    destruct (IH (10 * a)%Z b) as (I0 & I1 & I2); [lia|lia| |].
    + rewrite Nat2Z.inj_succ, Z.pow_succ_r in Hf by lia. lia.
    + set (x := log10_down k (10 * a) b) in *. replace (- (x - 1))%Z with (Z.succ (- x)) by lia. rewrite Z.pow_succ_r by lia. lia.
Qed.

Lemma b10_Z x : (0 <= x)%Z -> b10 x = IZR (10 ^ x).
Proof. intros H. symmetry. apply (IZR_Zpower radix10). exact H. Qed.
Lemma log2_fuel a : (0 < a)%Z -> (a < 10 ^ Z.of_nat (S (Z.to_nat (Z.log2 a))))%Z.
Proof.
  intros H. pose proof (Z.log2_spec a H) as [_ L]. pose proof (Z.log2_nonneg a). rewrite Nat2Z.inj_succ, Z2Nat.id by lia.
  eapply Z.lt_le_trans; [exact L|]. apply Z.pow_le_mono_l. lia.
Qed.
Lemma log10_ok a b : (0 < a)%Z -> (0 < b)%Z ->
  b10 (log10 a b) <= IZR a / IZR b < b10 (log10 a b + 1).
Proof.
  intros Ha Hb. assert (Hb' : 0 < IZR b) by (apply IZR_lt; lia). assert (Ha' : 0 < IZR a) by (apply IZR_lt; lia).
  assert (D : forall y z, y * IZR b <= IZR a -> IZR a < z * IZR b -> y <= IZR a / IZR b < z).
  { intros y z H1 H2. split.
    - apply Rmult_le_reg_r with (IZR b); [lra|]. unfold Rdiv. rewrite Rmult_assoc, Rinv_l, Rmult_1_r by lra. exact H1.
    - apply Rmult_lt_reg_r with (IZR b); [lra|]. unfold Rdiv. rewrite Rmult_assoc, Rinv_l, Rmult_1_r by lra. exact H2. }
  unfold log10. destruct (Z.leb_spec b a) as [L|L].
  - destruct (log10_up_ok (S (Z.to_nat (Z.log2 a))) a b) as (I0 & I1 & I2); [lia| |].
    + pose proof (log2_fuel a Ha). nia.
    + set (x := log10_up _ a b) in *. rewrite !b10_Z by lia. apply D; rewrite <- mult_IZR; [apply IZR_le|apply IZR_lt]; lia.
  - destruct (log10_down_ok (S (Z.to_nat (Z.log2 b))) a b) as (I0 & I1 & I2); [lia|lia| |].
    + pose proof (log2_fuel b Hb). nia.
    + set (x := log10_down _ a b) in *.
      assert (P : 0 < b10 (- x)) by apply bpow_gt_0.
      assert (E : b10 x * b10 (- x) = 1) by (rewrite <- bpow_plus; replace (x + - x)%Z with 0%Z by lia; reflexivity).
      rewrite bpow_plus. change (b10 1) with 10.
      apply D; (apply Rmult_le_reg_r with (b10 (- x)) || apply Rmult_lt_reg_r with (b10 (- x))); try exact P.
      * replace (b10 x * IZR b * b10 (- x)) with (IZR b * (b10 x * b10 (- x))) by ring. rewrite E, Rmult_1_r, b10_Z, <- mult_IZR by lia. apply IZR_le. lia.
      * replace (b10 x * 10 * IZR b * b10 (- x)) with (10 * IZR b * (b10 x * b10 (- x))) by ring. rewrite E, Rmult_1_r, b10_Z, <- !mult_IZR by lia. apply IZR_lt. lia.
Qed.

(** ** six digits *)
Lemma quotient_val m e : IZR (Zpos m * 2 ^ Z.max 0 e) / IZR (2 ^ Z.max 0 (- e)) = IZR (Zpos m) * bpow radix2 e.
Proof.
  destruct (Z.le_gt_cases 0 e) as [H|H].
  - rewrite (Z.max_r 0 e), (Z.max_l 0 (- e)) by lia. rewrite mult_IZR. change (2 ^ e)%Z with (radix2 ^ e)%Z. rewrite (IZR_Zpower radix2 e H), Z.pow_0_r. field.
  - rewrite (Z.max_l 0 e), (Z.max_r 0 (- e)) by lia. change (2 ^ (- e))%Z with (radix2 ^ (- e))%Z. rewrite (IZR_Zpower radix2 (- e)) by lia.
    rewrite bpow_opp, Z.pow_0_r, Z.mul_1_r. field. pose proof (bpow_gt_0 radix2 e). lra.
Qed.
Lemma six_digits_round m e d x : six_digits m e = (d, x) ->
  (100000 <= d < 1000000)%Z /\ IZR d * b10 (x - 5) = six_digit (IZR (Zpos m) * bpow radix2 e).
Proof.
  unfold six_digits. set (a := (Zpos m * 2 ^ Z.max 0 e)%Z). set (b := (2 ^ Z.max 0 (- e))%Z).
  assert (Ha : (0 < a)%Z) by (apply Z.mul_pos_pos; [lia|apply Z.pow_pos_nonneg; lia]).
  assert (Hb : (0 < b)%Z) by (apply Z.pow_pos_nonneg; lia).
  rewrite <- quotient_val. fold a b. set (v := IZR a / IZR b).
  pose proof (log10_ok a b Ha Hb) as L. fold v in L. set (y := log10 a b) in *.
  set (d0 := if (y <=? 5)%Z then _ else _).
  assert (Hb' : 0 < IZR b) by (apply IZR_lt; lia). assert (Ha' : 0 < IZR a) by (apply IZR_lt; lia).
  assert (E0 : d0 = ZnearestE (v * b10 (5 - y))).
  { unfold d0. destruct (Z.leb_spec y 5) as [H|H].
    - rewrite div_half_even_nearest by exact Hb. f_equal. rewrite mult_IZR, <- b10_Z by lia. unfold v. field. lra.
    - rewrite div_half_even_nearest by (apply Z.mul_pos_pos; [lia|apply Z.pow_pos_nonneg; lia]). f_equal.
      rewrite mult_IZR, <- b10_Z by lia. replace (5 - y)%Z with (- (y - 5))%Z by lia. rewrite bpow_opp. unfold v. field.
      pose proof (bpow_gt_0 radix10 (y - 5)). lra. }
  assert (MG : mag radix10 v = (y + 1)%Z :> Z).
  { apply mag_unique_pos. replace (y + 1 - 1)%Z with y by lia. exact L. }
  assert (RV : six_digit v = IZR d0 * b10 (y - 5)).
  { unfold six_digit, round, F2R, scaled_mantissa, cexp. cbn [Fnum Fexp]. rewrite MG. unfold FLX_exp.
    replace (y + 1 - 6)%Z with (y - 5)%Z by lia. replace (- (y - 5))%Z with (5 - y)%Z by lia. rewrite E0. reflexivity. }
  assert (BD : (100000 <= d0 <= 1000000)%Z).
  { assert (B5 : b10 5 <= v * b10 (5 - y) < b10 6).
    { pose proof (bpow_gt_0 radix10 (5 - y)) as P. replace 5%Z with (y + (5 - y))%Z at 1 by lia. replace 6%Z with (y + 1 + (5 - y))%Z by lia.
      rewrite !(bpow_plus _ _ (5 - y)). split; [apply Rmult_le_compat_r; lra|apply Rmult_lt_compat_r; lra]. }
    change (b10 5) with (IZR 100000) in B5. change (b10 6) with (IZR 1000000) in B5.
    rewrite E0. split.
    - apply Z.le_trans with (ZnearestE (IZR 100000)); [apply Z.eq_le_incl; symmetry; apply (@Zrnd_IZR ZnearestE _ 100000)|apply Zrnd_le; [auto with typeclass_instances|exact (proj1 B5)]].
    - apply Z.le_trans with (ZnearestE (IZR 1000000)); [apply Zrnd_le; [auto with typeclass_instances|apply Rlt_le; exact (proj2 B5)]|apply Z.eq_le_incl; apply (@Zrnd_IZR ZnearestE _ 1000000)]. }
  destruct (Z.eqb_spec d0 1000000) as [H|H]; intros [= <- <-].
  - split; [lia|]. rewrite RV, H. replace (y + 1 - 5)%Z with (1 + (y - 5))%Z by lia. rewrite bpow_plus. change (b10 1) with 10. lra.
  - split; [lia|]. now rewrite RV.
Qed.

(** ** digits *)
Lemma of_dec_app a b z : of_dec (a ++ b) z = of_dec b (of_dec a z).
Proof. apply fold_left_app. Qed.
Lemma decimal_nil : decimal [] 0.
Proof. split; [constructor|reflexivity]. Qed.
Lemma padded_ok k n : (n < 10 ^ N.of_nat k)%N -> decimal (padded k n) n /\ padded k n <> [] /\ ((0 < k)%nat -> length (padded k n) = k).
Proof.
  intros H. unfold padded. destruct (digits_decimal n) as [D0 [D1 D2]]. split; [split|split].
  - apply Forall_app. split; [|exact D1]. apply Forall_forall. intros x Hx. apply repeat_spec in Hx. subst x. unfold digit. lia.
  - rewrite fold_left_app, zeros_value. exact D2.
  - intros E. apply app_eq_nil in E as [_ E]. contradiction.
  - intros Hk. rewrite app_length, repeat_length. unfold digits in *. pose proof (dec_aux_len (S (N.to_nat (N.log2 n))) k n [] H Hk) as L. cbn [length] in L. lia.
Qed.
Lemma strip_ok t : exists k, t = strip t ++ repeat 48%N k.
Proof.
  induction t as [|c t [k IH]]; [now exists 0%nat|]. cbn [strip]. destruct (strip t) as [|c' r] eqn:E.
  - destruct (N.eqb_spec c 48) as [->|H]; [exists (S k)|exists k]; cbn; now rewrite IH at 1.
  - exists k. cbn. now rewrite IH at 1.
Qed.
Lemma of_dec_zeros k z : of_dec (repeat 48%N k) z = (z * 10 ^ N.of_nat k)%N.
Proof.
  revert z. induction k as [|k IH]; intros z; [cbn; lia|]. cbn [repeat of_dec fold_left]. fold (of_dec (repeat 48%N k) (10 * z + (48 - 48))).
  rewrite IH, Nat2N.inj_succ, N.pow_succ_r'. lia.
Qed.
Lemma pow10_Z k : (10 ^ k)%R = IZR (10 ^ Z.of_nat k).
Proof. rewrite <- pow_IZR. reflexivity. Qed.
Lemma strip_value t n : decimal t n -> exists n', decimal (strip t) n' /\ IZR (Z.of_N n') / 10 ^ length (strip t) = IZR (Z.of_N n) / 10 ^ length t.
Proof.
  intros [D V]. destruct (strip_ok t) as [k E]. exists (of_dec (strip t) 0). split.
  - split; [|reflexivity]. rewrite E in D. now apply Forall_app in D.
  - assert (V' : n = (of_dec (strip t) 0 * 10 ^ N.of_nat k)%N). { rewrite <- V. change (fold_left _ t 0%N) with (of_dec t 0). rewrite E at 1. now rewrite of_dec_app, of_dec_zeros. }
    rewrite V'. assert (EL : length t = (length (strip t) + k)%nat) by (rewrite E at 1; now rewrite app_length, repeat_length).
    rewrite EL, pow_add, N2Z.inj_mul, mult_IZR, N2Z.inj_pow, nat_N_Z. change (Z.of_N 10) with 10%Z. rewrite <- pow10_Z.
    assert (10 ^ k <> 0) by (apply pow_nonzero; lra). assert (10 ^ length (strip t) <> 0) by (apply pow_nonzero; lra). field. auto.
Qed.
Lemma fixed_value d k : (0 <= d)%Z -> (0 <= k)%Z ->
  exists i f ni nf, fixed_text d k = i ++ (match f with [] => [] | _ => str "." ++ f end) /\ i <> [] /\ decimal i ni /\ decimal f nf /\
    IZR (Z.of_N ni) + IZR (Z.of_N nf) / 10 ^ length f = IZR d / IZR (10 ^ k).
Proof.
  intros Hd Hk. set (p := (10 ^ k)%Z). assert (Hp : (0 < p)%Z) by (apply Z.pow_pos_nonneg; lia).
  pose proof (Z.mod_pos_bound d p Hp) as B. pose proof (Z.div_pos d p Hd Hp) as Q. pose proof (Z.div_mod d p ltac:(lia)) as E.
  destruct (digits_decimal (Z.to_N (d / p))) as [I0 I1].
  assert (PP : (Z.to_N (d mod p) < 10 ^ N.of_nat (Z.to_nat k))%N).
  { apply N2Z.inj_lt. rewrite Z2N.id, N2Z.inj_pow, nat_N_Z, Z2Nat.id by lia. change (Z.of_N 10) with 10%Z. fold p. lia. }
  destruct (padded_ok _ _ PP) as (P1 & P2 & P3).
  assert (Hp' : 0 < IZR p) by (apply IZR_lt; lia).
  destruct (strip_value _ _ P1) as (n' & S1 & S2).
  unfold fixed_text. fold p. exists (digits (Z.to_N (d / p))), (strip (padded (Z.to_nat k) (Z.to_N (d mod p)))), (Z.to_N (d / p)), n'.
  split; [now destruct (strip _)|]. split; [exact I0|]. split; [exact I1|]. split; [exact S1|]. rewrite S2.
  assert (EV : IZR d = IZR p * IZR (d / p) + IZR (d mod p)) by (rewrite <- mult_IZR, <- plus_IZR; f_equal; exact E).
  rewrite !Z2N.id by lia. rewrite EV.
  destruct (Z.eq_dec k 0) as [->|Hk0].
  - assert (p1 : p = 1%Z) by reflexivity. assert (M0 : (d mod p)%Z = 0%Z) by lia. rewrite M0, p1. unfold Rdiv. rewrite Rmult_0_l. field.
  - rewrite P3 by lia. rewrite pow10_Z, Z2Nat.id by lia. fold p. field. lra.
Qed.

(** the text of a number denotes it, rounded to six digits *)
Definition signed (s : bool) (t : text) : text := (if s then str "-" else []) ++ t.
Lemma layout_literal s d x : (100000 <= d < 1000000)%Z ->
  literal (signed s (layout d x)) ((if s then -1 else 1) * (IZR d * b10 (x - 5))).
Proof.
  intros Hd. unfold layout. destruct ((-4 <=? x) && (x <? 6))%Z eqn:C.
  - apply andb_true_iff in C as [C1 C2]. apply Z.leb_le in C1. apply Z.ltb_lt in C2.
    destruct (fixed_value d (5 - x)) as (i & f & ni & nf & E & H1 & H2 & H3 & H4); [lia|lia|].
    exists s, i, f, ni, nf, None. unfold signed. rewrite E, app_nil_r. repeat split; try apply H2; try apply H3; try discriminate; auto.
    rewrite H4, Rmult_1_r. f_equal. rewrite <- b10_Z by lia. replace (5 - x)%Z with (- (x - 5))%Z by lia. rewrite bpow_opp.
    pose proof (bpow_gt_0 radix10 (x - 5)). field. lra.
  - destruct (fixed_value d 5) as (i & f & ni & nf & E & H1 & H2 & H3 & H4); [lia|lia|].
    set (n := Z.to_N (Z.abs x)).
    assert (PD : decimal (padded 2 n) n /\ padded 2 n <> []).
    { destruct (digits_decimal n) as [D0 [D1 D2]]. unfold padded. split; [split|].
      - apply Forall_app. split; [|exact D1]. apply Forall_forall. intros c Hc. apply repeat_spec in Hc. subst c. unfold digit. lia.
      - rewrite fold_left_app, zeros_value. exact D2.
      - intros X. apply app_eq_nil in X as [_ X]. contradiction. }
    exists s, i, f, ni, nf, (Some ((x <? 0)%Z, padded 2 n, n)). split.
    { unfold signed, exponent_text. rewrite E. fold n. now rewrite <- !app_assoc. }
    split; [exact H1|]. split; [exact H2|]. split; [exact H3|]. split; [intros ? ? ? [= <- <- <-]; now destruct PD|].
    rewrite H4. rewrite Rmult_assoc. f_equal. change (10 ^ 5)%Z with 100000%Z.
    unfold Zminus. rewrite bpow_plus. change (b10 (- (5))) with (/ 100000).
    assert (NX : Z.of_nat (N.to_nat n) = Z.abs x) by (unfold n; lia).
    destruct (Z.ltb_spec x 0) as [H|H].
    + rewrite pow10_Z, NX, <- b10_Z by lia. replace (Z.abs x) with (- x)%Z by lia. rewrite bpow_opp.
      pose proof (bpow_gt_0 radix10 x). field. lra.
    + rewrite pow10_Z, NX, <- b10_Z by lia. replace (Z.abs x) with x by lia. field.
Qed.
Lemma six_digit_0 : six_digit 0 = 0.
Proof. apply round_0. auto with typeclass_instances. Qed.
Lemma six_digit_opp r : six_digit (- r) = - six_digit r.
Proof. apply round_NE_opp. Qed.
Lemma double_text_literal (v : f64) : is_finite v = true -> literal (double_text v) (six_digit (B2R v)).
Proof.
  destruct v as [s|s| |s m e He]; try discriminate; intros _; cbn [double_text B2R].
  - rewrite six_digit_0. exists s, (str "0"), [], 0%N, 0%N, None. rewrite app_nil_r. split; [reflexivity|]. split; [discriminate|].
    split; [change (decimal [48%N] 0); split; [apply Forall_cons; [unfold digit; lia|apply Forall_nil]|reflexivity]|]. split; [apply decimal_nil|]. split; [discriminate|]. cbn. destruct s; field.
  - destruct (six_digits m e) as [d x] eqn:E. destruct (six_digits_round m e d x E) as [B V].
    pose proof (layout_literal s d x B) as L. unfold signed in L. rewrite V in L.
    replace (six_digit (F2R _)) with ((if s then -1 else 1) * six_digit (IZR (Z.pos m) * bpow radix2 e)); [exact L|].
    unfold F2R. cbn [Fnum Fexp]. destruct s; cbn [cond_Zopp].
    + rewrite opp_IZR, Ropp_mult_distr_l_reverse, six_digit_opp. lra.
    + lra.
Qed.

(** accuracy and monotonicity of six digits *)
Lemma flx6 : Prec_gt_0 6. Proof. reflexivity. Qed.
Lemma six_digit_le a b : a <= b -> six_digit a <= six_digit b.
Proof. apply round_le; [apply FLX_exp_valid; exact flx6|auto with typeclass_instances]. Qed.
Lemma six_digit_close r : Rabs (six_digit r - r) <= 5 / 1000000 * Rabs r.
Proof.
  pose proof (relative_error_N_FLX radix10 6 flx6 (fun z => negb (Z.even z)) r) as H. unfold six_digit.
  eapply Rle_trans; [exact H|]. right. replace (b10 (- (6) + 1)) with (/ 100000) by reflexivity. field.
Qed.
Lemma six_digit_pos r : 0 < r -> 0 < six_digit r.
Proof. intros H. pose proof (six_digit_close r) as C. rewrite (Rabs_pos_eq r) in C by lra. apply Rabs_le_inv in C. lra. Qed.
Lemma six_digit_ge0 r : 0 <= r -> 0 <= six_digit r.
Proof. intros H. rewrite <- six_digit_0. now apply six_digit_le. Qed.

(** ** a text denotes one number *)
Definition no_digit (t : text) : Prop := match t with [] => True | c :: _ => ~ digit c end.
Lemma span_unique i : forall i' r r', Forall digit i -> Forall digit i' -> no_digit r -> no_digit r' ->
  i ++ r = i' ++ r' -> i = i' /\ r = r'.
Proof.
  induction i as [|c i IH]; intros [|c' i'] r r' D D' N N' E; cbn [app] in E.
  - auto.
  - subst r. apply Forall_cons_iff in D' as [D' _]. destruct (N D').
  - subst r'. apply Forall_cons_iff in D as [D _]. destruct (N' D).
  - injection E as <- E. apply Forall_cons_iff in D as [_ D]. apply Forall_cons_iff in D' as [_ D'].
    destruct (IH i' r r' D D' N N' E) as [-> ->]. auto.
Qed.
Definition frac (f : text) : text := match f with [] => [] | _ => str "." ++ f end.
Definition expo (ex : option (bool * text * N)) : text :=
  match ex with None => [] | Some (s, k, _) => str "e" ++ (if s then str "-" else str "+") ++ k end.
Lemma expo_no_digit ex : no_digit (expo ex).
Proof. destruct ex as [[[s k] n]|]; [|exact I]. cbn. unfold digit. lia. Qed.
Lemma frac_no_digit f r : no_digit r -> no_digit (frac f ++ r).
Proof. destruct f; [auto|]. intros _. cbn. unfold digit. lia. Qed.
Lemma expo_unique ex ex' : (forall s k n, ex = Some (s, k, n) -> k <> [] /\ decimal k n) ->
  (forall s k n, ex' = Some (s, k, n) -> k <> [] /\ decimal k n) -> expo ex = expo ex' -> ex = ex'.
Proof.
  intros H H' E. destruct ex as [[[s k] n]|], ex' as [[[s' k'] n']|]; auto; cbn in E; try discriminate.
  destruct (H _ _ _ eq_refl) as [_ [D V]]. destruct (H' _ _ _ eq_refl) as [_ [D' V']].
  injection E as E. destruct s, s'; cbn in E; try discriminate; injection E as <-; congruence.
Qed.
Lemma literal_unique t r r' : literal t r -> literal t r' -> r = r'.
Proof.
  intros (neg & i & f & ni & nf & ex & E & I0 & [I1 I2] & [F1 F2] & X & ->) (neg' & i' & f' & ni' & nf' & ex' & E' & I0' & [I1' I2'] & [F1' F2'] & X' & ->).
  fold (frac f) (expo ex) in E. fold (frac f') (expo ex') in E'.
  assert (EN : neg = neg').
  { destruct i as [|c i]; [contradiction|]. destruct i' as [|c' i']; [contradiction|].
    apply Forall_cons_iff in I1 as [D _]. apply Forall_cons_iff in I1' as [D' _]. unfold digit in *.
    destruct neg, neg'; auto; rewrite E in E'; cbn in E'; injection E'; intros; subst; lia. }
  subst neg'. assert (ET : i ++ frac f ++ expo ex = i' ++ frac f' ++ expo ex').
  { rewrite E in E'. destruct neg; [|exact E']. now injection E'. }
  apply span_unique in ET as [-> ET]; auto; try (apply frac_no_digit, expo_no_digit).
  assert (EF : f = f' /\ expo ex = expo ex').
  { destruct f as [|c f], f' as [|c' f']; cbn [frac app] in ET.
    - auto.
    - exfalso. destruct ex as [[[s k] n]|]; cbn in ET; discriminate.
    - exfalso. destruct ex' as [[[s k] n]|]; cbn in ET; discriminate.
    - apply app_inv_head_iff in ET || idtac. rewrite <- !app_assoc in ET. apply app_inv_head in ET.
      apply span_unique in ET; auto; apply expo_no_digit. }
  destruct EF as [<- EE]. apply expo_unique in EE; auto. subst ex'. congruence.
Qed.
