(** C++ double: IEEE 754 binary64 with rounding to nearest even (Flocq).

    Assumed of the platform: double is binary64, every operation is rounded once (no excess
    precision, no contraction to fused multiply-add). *)
From Verif Require Import Base.
From Coq Require Import Reals Lra.
From Flocq Require Import Core BinarySingleNaN Relative.

Global Instance prec53 : Prec_gt_0 53 := eq_refl.
Global Instance prec53_1024 : Prec_lt_emax 53 1024 := eq_refl.
Notation f64 := (binary_float 53 1024).

Definition fadd : f64 -> f64 -> f64 := Bplus mode_NE.
Definition fsub : f64 -> f64 -> f64 := Bminus mode_NE.
Definition fmul : f64 -> f64 -> f64 := Bmult mode_NE.
Definition fdiv : f64 -> f64 -> f64 := Bdiv mode_NE.
Definition fsqrt : f64 -> f64 := Bsqrt mode_NE.
(** static_cast<double> of an integer; the literal m * 2^e *)
Definition f_of_Z (z : Z) : f64 := binary_normalize 53 1024 _ _ mode_NE z 0 false.
Definition f_me (m e : Z) : f64 := binary_normalize 53 1024 _ _ mode_NE m e false.
(** a < b; false if one of them is not a number *)
Definition flt (a b : f64) : bool := Bltb a b.
Definition fle (a b : f64) : bool := Bleb a b.
(** std::min(a, b) and std::max(a, b) *)
Definition fmin (a b : f64) : f64 := if flt b a then b else a.
Definition fmax (a b : f64) : f64 := if flt a b then b else a.
Definition f0 : f64 := B754_zero false.
Definition fnan : f64 := B754_nan.
(** std::numeric_limits<double>::max() *)
Definition DBL_MAX : f64 := f_me 9007199254740991 971.
(** std::floor for numbers of any size *)
Definition ffloor (x : f64) : f64 := Bnearbyint mode_DN x.

Notation finite := (@is_finite 53 1024).
Notation val := (@B2R 53 1024).

(** * Facts *)
Local Open Scope R_scope.
Notation rnd := (round radix2 (SpecFloat.fexp 53 1024) ZnearestE).

Global Instance valid_fexp : Valid_exp (SpecFloat.fexp 53 1024) := fexp_correct 53 1024 _.
Global Instance mono_fexp : Monotone_exp (SpecFloat.fexp 53 1024) := fexp_monotone 53 1024.

Lemma rnd_le x y : x <= y -> rnd x <= rnd y.
Proof. apply round_le; auto with typeclass_instances. Qed.
Lemma rnd_val (a : f64) : rnd (val a) = val a.
Proof. apply round_generic; auto with typeclass_instances. apply generic_format_B2R. Qed.
Lemma rnd_0 : rnd 0 = 0.
Proof. apply round_0. auto with typeclass_instances. Qed.
Lemma rnd_ge0 x : 0 <= x -> 0 <= rnd x.
Proof. intros H. rewrite <- rnd_0. now apply rnd_le. Qed.
Lemma fmt_bpow e : (-1074 <= e <= 1023)%Z -> generic_format radix2 (SpecFloat.fexp 53 1024) (bpow radix2 e).
Proof. intros H. apply generic_format_bpow. unfold SpecFloat.fexp, SpecFloat.emin. lia. Qed.
Lemma rnd_bpow e : (-1074 <= e <= 1023)%Z -> rnd (bpow radix2 e) = bpow radix2 e.
Proof. intros H. apply round_generic; auto with typeclass_instances. now apply fmt_bpow. Qed.

(** integers times a power of two *)
Lemma fmt_scaled m e : (Z.abs m <= 9007199254740992)%Z -> (-1074 <= e)%Z ->
  generic_format radix2 (SpecFloat.fexp 53 1024) (IZR m * bpow radix2 e).
Proof.
  intros Hm He. destruct (Z.eq_dec m 9007199254740992) as [->|Hm1].
  { replace (IZR 9007199254740992) with (bpow radix2 53) by reflexivity. rewrite <- bpow_plus.
    apply generic_format_bpow. unfold SpecFloat.fexp, SpecFloat.emin. lia. }
  destruct (Z.eq_dec m (-9007199254740992)) as [->|Hm2].
  { replace (IZR (-9007199254740992)) with (- bpow radix2 53) by (simpl; lra). rewrite Ropp_mult_distr_l_reverse, <- bpow_plus.
    apply generic_format_opp. apply generic_format_bpow. unfold SpecFloat.fexp, SpecFloat.emin. lia. }
  change (generic_format radix2 (FLT_exp (-1074) 53) (IZR m * bpow radix2 e)).
  apply generic_format_FLT. exists (Float radix2 m e); cbn; [reflexivity|lia|lia].
Qed.
Lemma rnd_scaled m e : (Z.abs m <= 9007199254740992)%Z -> (-1074 <= e)%Z -> rnd (IZR m * bpow radix2 e) = IZR m * bpow radix2 e.
Proof. intros Hm He. apply round_generic; auto with typeclass_instances. now apply fmt_scaled. Qed.
Lemma rnd_Z m : (Z.abs m <= 9007199254740992)%Z -> rnd (IZR m) = IZR m.
Proof. intros Hm. rewrite <- (Rmult_1_r (IZR m)). change 1 with (bpow radix2 0). now apply rnd_scaled. Qed.

(** ** Operations without overflow *)
Definition small (x : R) : Prop := Rabs x <= bpow radix2 1023.

Lemma small_rnd x : small x -> Rlt_bool (Rabs (rnd x)) (bpow radix2 1024) = true.
Proof.
  intros H. apply Rlt_bool_true. apply Rle_lt_trans with (bpow radix2 1023); [|now apply bpow_lt].
  apply abs_round_le_generic; auto with typeclass_instances. now apply fmt_bpow.
Qed.

Lemma fadd_ok a b : finite a = true -> finite b = true -> small (val a + val b) ->
  finite (fadd a b) = true /\ val (fadd a b) = rnd (val a + val b).
Proof.
  intros Ha Hb Hs. pose proof (Bplus_correct 53 1024 _ _ mode_NE a b Ha Hb) as H.
  cbn [round_mode] in H. rewrite small_rnd in H by exact Hs. tauto.
Qed.
Lemma fsub_ok a b : finite a = true -> finite b = true -> small (val a - val b) ->
  finite (fsub a b) = true /\ val (fsub a b) = rnd (val a - val b).
Proof.
  intros Ha Hb Hs. pose proof (Bminus_correct 53 1024 _ _ mode_NE a b Ha Hb) as H.
  cbn [round_mode] in H. rewrite small_rnd in H by exact Hs. tauto.
Qed.
Lemma fmul_ok a b : finite a = true -> finite b = true -> small (val a * val b) ->
  finite (fmul a b) = true /\ val (fmul a b) = rnd (val a * val b).
Proof.
  intros Ha Hb Hs. pose proof (Bmult_correct 53 1024 _ _ mode_NE a b) as H.
  cbn [round_mode] in H. rewrite small_rnd in H by exact Hs. rewrite Ha, Hb in H. tauto.
Qed.
Lemma fdiv_ok a b : finite a = true -> val b <> 0 -> small (val a / val b) ->
  finite (fdiv a b) = true /\ val (fdiv a b) = rnd (val a / val b).
Proof.
  intros Ha Hb Hs. pose proof (Bdiv_correct 53 1024 _ _ mode_NE a b Hb) as H.
  cbn [round_mode] in H. rewrite small_rnd in H by exact Hs. rewrite Ha in H. tauto.
Qed.
Lemma f_me_ok m e : small (IZR m * bpow radix2 e) ->
  finite (f_me m e) = true /\ val (f_me m e) = rnd (IZR m * bpow radix2 e).
Proof.
  intros Hs. pose proof (binary_normalize_correct 53 1024 _ _ mode_NE m e false) as H.
  cbn [round_mode] in H. unfold F2R in H. cbn [Fnum Fexp] in H. rewrite small_rnd in H by exact Hs. tauto.
Qed.
Lemma small_Z z : (Z.abs z <= 18446744073709551616)%Z -> small (IZR z).
Proof.
  intros H. unfold small. rewrite <- abs_IZR. apply Rle_trans with (IZR 18446744073709551616); [now apply IZR_le|].
  change (IZR 18446744073709551616) with (bpow radix2 64). apply bpow_le. lia.
Qed.
Lemma f_of_Z_ok z : (Z.abs z <= 18446744073709551616)%Z ->
  finite (f_of_Z z) = true /\ val (f_of_Z z) = rnd (IZR z).
Proof.
  intros H. pose proof (f_me_ok z 0) as G. cbn [bpow] in G. rewrite Rmult_1_r in G. apply G. now apply small_Z.
Qed.
Lemma f_of_Z_exact z : (Z.abs z <= 9007199254740992)%Z -> finite (f_of_Z z) = true /\ val (f_of_Z z) = IZR z.
Proof. intros H. destruct (f_of_Z_ok z) as [H1 H2]; [lia|]. rewrite rnd_Z in H2 by exact H. auto. Qed.

(** ** Comparisons *)
Lemma flt_ok a b : finite a = true -> finite b = true -> (flt a b = true <-> val a < val b).
Proof.
  intros Ha Hb. unfold flt. rewrite (Bltb_correct 53 1024 a b Ha Hb).
  case Rlt_bool_spec; intros H; split; auto; try discriminate. intros H'. lra.
Qed.
Lemma fle_ok a b : finite a = true -> finite b = true -> (fle a b = true <-> val a <= val b).
Proof.
  intros Ha Hb. unfold fle. rewrite (Bleb_correct 53 1024 a b Ha Hb).
  case Rle_bool_spec; intros H; split; auto; try discriminate. intros H'. lra.
Qed.

(** ** Relative error *)
Definition u64f : R := bpow radix2 (-53).
Lemma u64f_bounds : 0 < u64f < / 1000000.
Proof. unfold u64f. split; [apply bpow_gt_0|]. simpl. lra. Qed.

Lemma rnd_rel x : x = 0 \/ bpow radix2 (-1022) <= Rabs x ->
  exists d, Rabs d <= u64f /\ rnd x = x * (1 + d).
Proof.
  intros [->|Hx].
  - exists 0. rewrite Rabs_R0, rnd_0. split; [apply Rlt_le, u64f_bounds|lra].
  - destruct (relative_error_N_FLT_ex radix2 (-1074) 53 eq_refl (fun z => negb (Z.even z)) x) as (d & Hd & E); [exact Hx|].
    exists d. split; [|exact E]. replace u64f with (/ 2 * bpow radix2 (-53 + 1)); [exact Hd|].
    unfold u64f. rewrite bpow_plus. simpl. lra.
Qed.
Lemma rnd_rel_pos x : x = 0 \/ bpow radix2 (-1022) <= x ->
  x * (1 - u64f) <= rnd x <= x * (1 + u64f).
Proof.
  intros Hx. assert (H0 : 0 <= x) by (destruct Hx as [->|Hx]; [lra|pose proof (bpow_gt_0 radix2 (-1022)); lra]).
  destruct (rnd_rel x) as (d & Hd & ->).
  - destruct Hx as [Hx|Hx]; [now left|right]. now rewrite Rabs_pos_eq.
  - apply Rabs_le_inv in Hd. split; apply Rmult_le_compat_l; lra.
Qed.
