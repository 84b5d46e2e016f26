(** Proofs about the summary of ndncatchunks. *)
From Verif Require Import Base BaseFacts PipelineBase PipelineSpec AdaptiveModel TlvModel PingModel Double PingStatsProofs DumpModel DumpSpec DumpProofs2
  ThroughputModel ThroughputProofs DecimalModel DecimalSpec DecimalProofs PingTextSpec PingTextProofs ChunksTextModel ChunksTextSpec ChunksTextProofs ChunksTextProofs2
  AdaptiveTheorems AdaptiveSummary WindowProofs.
From Coq Require Import String Reals Lra Lia.
From Coq Require Import List.
From Flocq Require Import Core BinarySingleNaN.
Import ListNotations.
Local Open Scope R_scope.
Local Open Scope list_scope.

(** * Signs *)
Lemma sign_of_Z n : (0 <= n <= 18446744073709551616)%Z -> Bsign (f_of_Z n) = false.
Proof.
  intros H. destruct (Z.eq_dec n 0) as [->|Hn]; [reflexivity|]. destruct (f_of_Z_ok n) as [H1 H2]; [lia|]. apply pos_sign; [exact H1|].
  rewrite H2. apply Rlt_le_trans with (rnd 1); [rewrite (rnd_Z 1) by lia; lra|]. apply rnd_le. apply IZR_le. lia.
Qed.
Lemma sign_div (a b : f64) : finite a = true -> val b <> 0 -> small (val a / val b) -> Bsign a = false -> Bsign b = false -> Bsign (fdiv a b) = false.
Proof.
  intros Ha Hb Hs Sa Sb. pose proof (Bdiv_correct 53 1024 _ _ mode_NE a b Hb) as H.
  cbn [round_mode] in H. rewrite small_rnd in H by exact Hs. destruct H as (H1 & H2 & H3).
  unfold fdiv. rewrite H3, Sa, Sb; [reflexivity|]. pose proof (proj1 (fdiv_ok a b Ha Hb Hs)) as F. unfold fdiv in F.
  destruct (Bdiv mode_NE a b); try reflexivity; discriminate.
Qed.
Lemma sign_quotient a b : (0 <= a <= 18446744073709551616)%Z -> (0 < b <= 9007199254740992)%Z -> Bsign (quotient a b) = false.
Proof.
  intros Ha Hb. destruct (f_of_Z_ok a) as [H1 H2]; [lia|]. destruct (f_of_Z_exact b) as [G1 G2]; [lia|]. unfold quotient.
  assert (B1 : 1 <= IZR b) by (apply IZR_le; lia).
  assert (Hv : 0 <= val (f_of_Z a) <= bpow radix2 64).
  { rewrite H2. split; [apply rnd_ge0; apply IZR_le; lia|]. rewrite <- (rnd_bpow 64) by lia. apply rnd_le.
    change (bpow radix2 64) with (IZR 18446744073709551616). apply IZR_le. lia. }
  assert (IB : 0 < / IZR b <= 1). { split; [apply Rinv_0_lt_compat; lra|]. rewrite <- Rinv_1. apply Rinv_le; lra. }
  apply sign_div; [exact H1|rewrite G2; lra| |apply sign_of_Z; lia|apply sign_of_Z; lia].
  rewrite G2. unfold small, Rdiv. rewrite Rabs_pos_eq by (apply Rmult_le_pos; lra).
  apply Rle_trans with (bpow radix2 64); [|apply bpow_le; lia]. rewrite <- (Rmult_1_r (bpow radix2 64)). apply Rmult_le_compat; lra.
Qed.

(** * Three decimals *)
Lemma thousandths_close m e : Rabs (IZR (thousandths m e) - IZR (Zpos m) * bpow radix2 e * 1000) <= / 2.
Proof.
  unfold thousandths. destruct (Z.leb_spec 0 e) as [H|H].
  - change (2 ^ e)%Z with (radix2 ^ e)%Z. rewrite !mult_IZR, (IZR_Zpower radix2 e H). rewrite Rminus_diag_eq by reflexivity. rewrite Rabs_R0. lra.
  - replace (IZR (Zpos m) * bpow radix2 e * 1000) with (IZR (Zpos m * 1000) / IZR (2 ^ (- e))).
    + apply div_half_even_close. apply Z.pow_pos_nonneg; lia.
    + change (2 ^ (- e))%Z with (radix2 ^ (- e))%Z. rewrite mult_IZR, (IZR_Zpower radix2 (- e)) by lia. rewrite bpow_opp. field. pose proof (bpow_gt_0 radix2 e). lra.
Qed.
Lemma thousandths_pos m e : (0 <= thousandths m e)%Z.
Proof.
  unfold thousandths, div_half_even. destruct (Z.leb_spec 0 e) as [H|H].
  - pose proof (Z.pow_nonneg 2 e). lia.
  - assert (0 < 2 ^ (- e))%Z by (apply Z.pow_pos_nonneg; lia).
    assert (0 <= (Z.pos m * 1000) / 2 ^ (- e))%Z by (apply Z.div_pos; lia).
    destruct (_ <? _)%Z; [lia|]. destruct (_ <? _)%Z; [lia|]. destruct (Z.even _); lia.
Qed.
Lemma fixed3_shows n x tol : (0 <= n)%Z -> 0 <= x -> Rabs (IZR n / 1000 - x) <= / 2000 + tol * x -> tol <= / 10 ^ 15 -> shows_fixed3 (fixed3 n) x.
Proof.
  intros H Hx0 Hx Ht. destruct (digits_decimal (Z.to_N (n / 1000))) as [D1 D2].
  assert (B : (0 <= n mod 1000 < 1000)%Z) by (apply Z.mod_pos_bound; lia).
  assert (Bq : (0 <= n / 1000)%Z) by (apply Z.div_pos; lia).
  destruct (padded_ok 3 (Z.to_N (n mod 1000))) as (P1 & P2 & P3); [cbn; lia|].
  exists (digits (Z.to_N (n / 1000))), (padded 3 (Z.to_N (n mod 1000))), (Z.to_N (n / 1000)), (Z.to_N (n mod 1000)).
  split; [reflexivity|]. split; [exact D1|]. split; [apply P3; lia|]. split; [exact D2|]. split; [exact P1|].
  rewrite !Z2N.id by lia. replace (IZR (n / 1000) + IZR (n mod 1000) / 1000) with (IZR n / 1000).
  - eapply Rle_trans; [exact Hx|]. apply Rplus_le_compat_l. now apply Rmult_le_compat_r.
  - rewrite (Z.div_mod n 1000) at 1 by lia. rewrite plus_IZR, mult_IZR. field.
Qed.
Lemma fixed3_text_shows (v : f64) x : finite v = true -> Bsign v = false -> 0 <= x -> Rabs (val v - x) <= bpow radix2 (-51) * x -> shows_fixed3 (fixed3_text v) x.
Proof.
  intros F S Hx C. pose proof p51 as P51. assert (HP : / 1000000000000000 = / 10 ^ 15) by (f_equal; simpl; lra). rewrite HP in P51.
  assert (G : forall n, (0 <= n)%Z -> Rabs (IZR n - val v * 1000) <= / 2 -> shows_fixed3 (fixed3 n) x).
  { intros n Hn Hc. apply (fixed3_shows n x (bpow radix2 (-51))); auto. apply Rabs_le_inv in C. apply Rabs_le_inv in Hc. apply Rabs_le. lra. }
  destruct v as [s|s| |s m e He]; try discriminate; cbn in S; subst s; cbn [fixed3_text app].
  - apply G; [lia|]. cbn. rewrite Rmult_0_l, Rminus_0_r, Rabs_R0. lra.
  - apply G; [apply thousandths_pos|]. exact (thousandths_close m e).
Qed.
Lemma ms3_ok ns : (0 <= ns < ns_max)%Z -> shows_fixed3 (fixed3_text (quotient ns 1000000)) (IZR ns / 10 ^ 6).
Proof.
  unfold ns_max. intros H. rewrite e6. destruct (quotient_ok ns 1000000) as (F & _ & _ & _ & B); [lia|lia|].
  assert (Hx : 0 <= IZR ns / 1000000) by (apply ratio_ge0; lia).
  apply fixed3_text_shows; [exact F|apply sign_quotient; lia|exact Hx|]. now apply pow2_close.
Qed.

(** * Goodput *)
Lemma goodput_ok bytes ns : (0 <= bytes < 1152921504606846976)%Z -> (0 < ns < ns_max)%Z ->
  let v := fdiv (f_of_Z (8 * bytes)) (quotient ns 1000000000) in
  finite v = true /\ Bsign v = false /\
  let x := 8 * IZR bytes / (IZR ns / 10 ^ 9) in 0 <= x /\ Rabs (val v - x) <= 8 * u * x.
Proof.
  unfold ns_max. intros Hb Hn. cbv zeta. destruct (quotient_ok ns 1000000000) as (F & _ & L & U & B); [lia|lia|]. rewrite e9.
  set (q := quotient ns 1000000000) in *. destruct L as [[L _]|L]; [lia|]. destruct (f_of_Z_ok (8 * bytes)) as [H1 H2]; [lia|].
  set (a := f_of_Z (8 * bytes)) in *. set (t := IZR ns / 1000000000) in *.
  assert (Ht : 0 < t). { unfold t. apply Rmult_lt_0_compat; [apply IZR_lt; lia|lra]. }
  pose proof (bpow_gt_0 radix2 (-54)) as P54. pose proof u_pos as U0. pose proof u_half as U1.
  assert (Ha : IZR (8 * bytes) * (1 - u) <= val a <= IZR (8 * bytes) * (1 + u)).
  { rewrite H2. apply rnd_rel_pos. destruct (Z.eq_dec bytes 0) as [->|Hz]; [now left|right].
    apply Rle_trans with 1; [change 1 with (bpow radix2 0); apply bpow_le; lia|]. apply IZR_le. lia. }
  assert (HB : 0 <= IZR (8 * bytes)) by (apply IZR_le; lia).
  assert (Ha0 : 0 <= val a) by nra.
  assert (Ha1 : val a <= bpow radix2 64).
  { rewrite H2, <- (rnd_bpow 64) by lia. apply rnd_le. change (bpow radix2 64) with (IZR 18446744073709551616). apply IZR_le. lia. }
  assert (Iq : 0 < / val q <= bpow radix2 54).
  { split; [apply Rinv_0_lt_compat; lra|]. replace (bpow radix2 54) with (/ bpow radix2 (-54)) by (rewrite <- bpow_opp; reflexivity). apply Rinv_le; lra. }
  assert (Hsm : small (val a / val q)).
  { unfold small, Rdiv. rewrite Rabs_pos_eq by (apply Rmult_le_pos; lra). apply Rle_trans with (bpow radix2 64 * bpow radix2 54); [apply Rmult_le_compat; lra|].
    rewrite <- bpow_plus. apply bpow_le. lia. }
  destruct (fdiv_ok a q H1) as [E1 E2]; [lra|exact Hsm|]. split; [exact E1|]. split.
  { apply sign_div; auto; [lra|apply sign_of_Z; lia|apply sign_quotient; lia]. }
  rewrite mult_IZR in Ha, HB. set (n := 8 * IZR bytes) in *. assert (Hx : 0 <= n / t) by (apply Rmult_le_pos; [lra|apply Rlt_le, Rinv_0_lt_compat; lra]).
  split; [exact Hx|].
  assert (Hy : n / t * (1 - 4 * u) <= val a / val q <= n / t * (1 + 4 * u)).
  { assert (Eq : val a / val q * val q = val a) by (field; lra). assert (Ex : n / t * t = n) by (field; lra).
    set (x := n / t) in *. set (y := val a / val q) in *. cbn [pow] in B.
    assert (Hy0 : 0 <= y) by (unfold y; apply Rmult_le_pos; lra). split.
    - apply Rnot_lt_le. intros Hlt.
      assert (K1 : y * val q <= y * ((1 + u) * ((1 + u) * 1) * t)) by (apply Rmult_le_compat_l; lra).
      assert (K2 : x * t * (1 - u) <= y * ((1 + u) * ((1 + u) * 1)) * t) by nra.
      assert (K3 : x * (1 - u) <= y * ((1 + u) * ((1 + u) * 1))) by (apply Rmult_le_reg_r with t; nra).
      assert (K4 : y * ((1 + u) * ((1 + u) * 1)) < x * (1 - 4 * u) * ((1 + u) * ((1 + u) * 1))) by (apply Rmult_lt_compat_r; nra).
      assert (K5 : (1 - 4 * u) * ((1 + u) * ((1 + u) * 1)) <= 1 - u) by nra.
      nra.
    - apply Rnot_lt_le. intros Hlt.
      assert (K1 : y * ((1 - u) * ((1 - u) * 1) * t) <= y * val q) by (apply Rmult_le_compat_l; lra).
      assert (K3 : y * ((1 - u) * ((1 - u) * 1)) <= x * (1 + u)) by (apply Rmult_le_reg_r with t; nra).
      assert (K4 : x * (1 + 4 * u) * ((1 - u) * ((1 - u) * 1)) < y * ((1 - u) * ((1 - u) * 1))) by (apply Rmult_lt_compat_r; nra).
      assert (K5 : 1 + u <= (1 + 4 * u) * ((1 - u) * ((1 - u) * 1))) by nra.
      nra. }
  rewrite E2. assert (Hr : val a / val q * (1 - u) <= rnd (val a / val q) <= val a / val q * (1 + u)).
  { apply rnd_rel_pos. destruct (Z.eq_dec bytes 0) as [Hz|Hz].
    - left. assert (val a = 0) by (rewrite H2, Hz; apply rnd_0). unfold Rdiv. rewrite H. ring.
    - right. assert (1 <= val a). { rewrite H2, <- (rnd_Z 1) by lia. apply rnd_le. apply IZR_le. lia. }
      apply Rle_trans with (/ val q).
      + apply Rle_trans with (/ bpow radix2 64); [rewrite <- bpow_opp; apply bpow_le; lia|]. apply Rinv_le; lra.
      + rewrite <- (Rmult_1_l (/ val q)). apply Rmult_le_compat_r; lra. }
  apply Rabs_le. set (x := n / t) in *. set (y := val a / val q) in *. split; nra.
Qed.
Lemma rate_shown (v : f64) x : finite v = true -> Bsign v = false -> 0 <= x -> Rabs (val v - x) <= 8 * u * x -> shows_rate (formatThroughput v) x.
Proof.
  intros F S Hx C. destruct (format_ok' v F S) as (t & p & n & H1 & H2 & H3 & _ & _ & H4).
  destruct H3 as (Hn & s & f & E & N1 & D1 & L & D2). exists s, f, (Z.to_N (n / 1000000)), (Z.to_N (n mod 1000000)), p.
  split; [rewrite H1, E, <- !app_assoc; reflexivity|]. split; [exact H2|]. split; [exact N1|]. split; [exact L|]. split; [exact D1|]. split; [exact D2|].
  assert (B : (0 <= n mod 1000000 < 1000000)%Z) by (apply Z.mod_pos_bound; lia).
  assert (Bq : (0 <= n / 1000000)%Z) by (apply Z.div_pos; lia). rewrite !Z2N.id by lia. rewrite e6.
  replace (IZR (n / 1000000) + IZR (n mod 1000000) / 1000000) with (IZR n / 1000000).
  2: { rewrite (Z.div_mod n 1000000) at 1 by lia. rewrite plus_IZR, mult_IZR. field. }
  change (bpow radix2 (-53)) with u in H4.
  assert (U : u <= / 5000000000000000) by (unfold u64f; simpl; lra). pose proof u_pos.
  assert (H14 : x / 10 ^ 14 = x * / 100000000000000) by (unfold Rdiv; f_equal; f_equal; simpl; lra). rewrite H14.
  apply Rabs_le_inv in C. apply Rabs_le_inv in H4.
  assert (D : val v * (5 * u) <= x * (6 * u)).
  { assert (XU : 0 <= x * u) by (apply Rmult_le_pos; lra). apply Rle_trans with (x * (1 + 8 * u) * (5 * u)); [apply Rmult_le_compat_r; lra|].
    assert (x * u * (40 * u) <= x * u * 1) by (apply Rmult_le_compat_l; lra). lra. } assert (E6 : 14 * u <= / 100000000000000) by lra.
  assert (x * (14 * u) <= x * / 100000000000000) by (apply Rmult_le_compat_l; lra).
  apply Rabs_le. lra.
Qed.

(** * The report *)
Lemma counts_ok n k : k = n -> (Z.of_nat n < 18446744073709551616)%Z -> counts (count_text (Z.of_nat k)) n.
Proof.
  intros -> H. unfold count_text. replace (Z.to_N (Z.of_nat n)) with (N.of_nat n) by lia. split; [apply to_string_nonempty|apply to_string_decimal; lia].
Qed.
Lemma base_ok el ns b h : (0 <= ns < ns_max)%Z -> b_nReceived b = Z.of_nat (length (deliveries h)) -> b_recvSize b = Z.of_nat (bytes_delivered h) ->
  (Z.of_nat (length (deliveries h)) < 18446744073709551616)%Z -> (Z.of_nat (bytes_delivered h) < 1152921504606846976)%Z ->
  transfer_report el ns h (base_summary el ns b).
Proof.
  intros Hns H1 H2 H3 H4. unfold transfer_report, base_summary. rewrite H1, H2. cbv zeta. rewrite Z.mod_small by lia.
  eexists _, _, _. split; [reflexivity|]. split; [now apply counts_ok|]. split.
  - rewrite INR_IZR_INZ. apply quotient_shows; lia.
  - intros Hp. rewrite INR_IZR_INZ. destruct (goodput_ok (Z.of_nat (bytes_delivered h)) ns) as (F & S & Hx & HC); [lia|lia|]. now apply rate_shown.
Qed.
Lemma percent_ok rx sent : (rx <= sent)%nat -> (Z.of_nat sent < 1000000000000000)%Z ->
  shows (double_text (if (Z.of_nat sent =? 0)%Z then f_of_Z 0 else fdiv (fmul (f_of_Z (Z.of_nat rx)) (f_of_Z 100)) (f_of_Z (Z.of_nat sent))))
    (51 / 10000000) (100 * INR rx / INR sent).
Proof.
  intros Hle Hs. destruct (Z.eqb_spec (Z.of_nat sent) 0) as [Hz|Hz].
  { assert (rx = 0%nat) by lia. subst rx. exists 0. replace (100 * INR 0 / INR sent) with 0 by (simpl; unfold Rdiv; ring). split.
    - rewrite <- six_digit_0. exact (double_text_literal (f_of_Z 0) eq_refl).
    - rewrite Rminus_0_r, Rabs_R0. lra. }
  destruct (f_of_Z_exact (Z.of_nat rx)) as [F1 V1]; [lia|]. destruct (f_of_Z_exact 100) as [F2 V2]; [lia|].
  destruct (f_of_Z_exact (Z.of_nat sent)) as [F3 V3]; [lia|].
  destruct (quotient_ok (100 * Z.of_nat rx) (Z.of_nat sent)) as (Fq & Vq & _ & Uq & _); [lia|lia|].
  destruct (fmul_ok (f_of_Z (Z.of_nat rx)) (f_of_Z 100) F1 F2) as [F4 V4].
  { rewrite V1, V2, <- mult_IZR. apply small_Z. lia. }
  rewrite V1, V2, <- mult_IZR, Z.mul_comm in V4.
  assert (Hsm : small (val (fmul (f_of_Z (Z.of_nat rx)) (f_of_Z 100)) / val (f_of_Z (Z.of_nat sent)))).
  { rewrite V4, V3. assert (B1 : 1 <= IZR (Z.of_nat sent)) by (apply IZR_le; lia).
    assert (IB : 0 < / IZR (Z.of_nat sent) <= 1). { split; [apply Rinv_0_lt_compat; lra|]. rewrite <- Rinv_1. apply Rinv_le; lra. }
    assert (0 <= rnd (IZR (100 * Z.of_nat rx)) <= bpow radix2 64).
    { split; [apply rnd_ge0, IZR_le; lia|]. rewrite <- (rnd_bpow 64) by lia. apply rnd_le. change (bpow radix2 64) with (IZR 18446744073709551616). apply IZR_le. lia. }
    unfold small, Rdiv. rewrite Rabs_pos_eq by (apply Rmult_le_pos; lra).
    apply Rle_trans with (bpow radix2 64); [|apply bpow_le; lia]. rewrite <- (Rmult_1_r (bpow radix2 64)). apply Rmult_le_compat; lra. }
  destruct (fdiv_ok _ (f_of_Z (Z.of_nat sent)) F4) as [F5 V5]; [rewrite V3; apply IZR_neq; lia|exact Hsm|].
  rewrite V4, V3, <- Vq in V5.
  destruct (quotient_shown (100 * Z.of_nat rx) (Z.of_nat sent)) as [_ B]; [lia|lia|].
  exists (six_digit (val (quotient (100 * Z.of_nat rx) (Z.of_nat sent)))). split.
  - rewrite <- V5. now apply double_text_literal.
  - rewrite !INR_IZR_INZ. rewrite mult_IZR in B. exact B.
Qed.
Lemma filter_le {A} (p q : A -> bool) l : (forall x, p x = true -> q x = true) -> (length (filter p l) <= length (filter q l))%nat.
Proof.
  intros H. induction l as [|x l IH]; cbn [filter]; [lia|]. specialize (H x). destruct (p x); [rewrite H by reflexivity; cbn; lia|].
  destruct (q x); cbn; lia.
Qed.
Lemma filter_short {A} (p : A -> bool) l : (length (filter p l) <= length l)%nat.
Proof. induction l as [|x l IH]; cbn [filter length]; [lia|]. destruct (p x); cbn [length]; lia. Qed.
Lemma deliveries_le h : (length (deliveries h) <= length h)%nat.
Proof.
  induction h as [|o h IH]; [cbn; lia|]. change (o :: h) with ([o] ++ h). rewrite deliveries_app, !app_length.
  assert (length (deliveries [o]) <= 1)%nat by (destruct o; cbn; lia). cbn [length]. lia.
Qed.

Lemma exists_last' {A} (l : list A) : l = [] \/ exists l' x, l = l' ++ [x].
Proof. destruct l as [|a l]; [now left|right]. destruct (@exists_last _ (a :: l)) as (l' & x & H); [discriminate|]. eauto. Qed.
Section K.
Context {W E : Type}.
Variable P : policy W E.
Variable C : aconfig.
Variable cwnd : W -> f64.
Variables rttVar sRtt : E -> Z.
Variable rtts : E -> option (Z * Z * Z).
Variable el : Z -> text.
Notation krun := (k_run P C cwnd rttVar sRtt rtts el).
Notation run := (a_run P C).

Lemma text_ok es : (passed es < ns_max)%Z -> countable (a_history (run es)) ->
  full_report el (a_now (run es)) (rtts (a_rtt (run es))) (a_history (run es)) (adaptive_text el rtts (run es)).
Proof.
  intros Hp [HL HB]. pose proof (adaptive_summary P C es) as HS. pose proof (now_nonneg P C es) as Hn.
  set (s := run es) in *. set (h := a_history s) in *. unfold printSummary, summary_of in HS.
  injection HS as S1 S2 S3 S4 S5 S6 S7 S8 S9. unfold count in *.
  assert (LE : forall p, (Z.of_nat (length (filter p h)) < 1000000000000000)%Z).
  { intros p. pose proof (filter_short p h). lia. }
  pose proof (deliveries_le h). pose proof (filter_short (fun p => d_mark (snd p)) (deliveries h)).
  unfold full_report, adaptive_text, number. rewrite S3, S4, S5, S6, S7, S8, S9.
  do 9 eexists. split; [reflexivity|]. split; [apply base_ok; auto; unfold ns_max in *; lia|].
  split; [apply counts_ok; [reflexivity|lia]|].
  split; [apply counts_ok; [reflexivity|specialize (LE (fun o => match o with ODecrMark _ => true | _ => false end)); lia]|].
  split; [apply counts_ok; [reflexivity|specialize (LE (fun o => match o with OGotExpiry _ | ORto _ => true | _ => false end)); lia]|].
  split; [apply counts_ok; [reflexivity|specialize (LE (fun o => match o with ODecrLoss _ => true | _ => false end)); lia]|].
  split; [apply counts_ok; [reflexivity|specialize (LE (fun o => match o with OInterest _ true => true | _ => false end)); lia]|].
  split; [apply percent_ok; [apply filter_le; intros []; auto; try discriminate|apply LE]|].
  split; [apply counts_ok; [reflexivity|specialize (LE (fun o => match o with OSkip _ => true | _ => false end)); lia]|].
  unfold rtt_report. destruct (rtts (a_rtt s)) as [[[mn av] mx]|]; [|reflexivity].
  eexists _, _, _. split; [reflexivity|]. repeat split; intros; now apply ms3_ok.
Qed.

Lemma flat_done (s : @astate W E) l : flat_map (on_done rtts el s) l = flat_map (on_done rtts el s) (completions l).
Proof. unfold completions. induction l as [|o l IH]; [reflexivity|]. cbn [flat_map filter]. destruct o; cbn [on_done app flat_map]; rewrite ?IH; reflexivity. Qed.
Lemma done_once h : (exists es, h = a_history (run es)) -> (length (completions h) <= 1)%nat.
Proof.
  intros [es E0]. destruct (completions h) as [|o l] eqn:Ec; [cbn; lia|]. destruct l as [|o' l]; [cbn; lia|].
  assert (Ho : In ODone h).
  { assert (In o (completions h)) by (rewrite Ec; now left). apply filter_In in H. destruct H as [H H']. destruct o; try discriminate. exact H. }
  apply in_split in Ho. destruct Ho as (h1 & h2 & Eh).
  assert (Hfirst : exists h1 h2, h = h1 ++ ODone :: h2 /\ completions h1 = []).
  { clear -Ec. revert Ec. induction h as [|x h IH]; [discriminate|]. cbn [completions filter]. destruct x; intros Ec;
      try (destruct IH as (a & b & -> & Hab); [exact Ec|]; eexists (_ :: a), b; split; [reflexivity|exact Hab]).
    exists [], h. auto. }
  destruct Hfirst as (a & b & E1 & E2). pose proof (adaptive_over P C es a ODone b) as HO. rewrite <- E0 in HO. specialize (HO E1 eq_refl).
  assert (Hb : completions b = []).
  { destruct (completions b) as [|x l'] eqn:Eb; [reflexivity|]. assert (In x (completions b)) by (rewrite Eb; now left).
    apply filter_In in H. destruct H as [H H']. specialize (HO x H). destruct x; discriminate. }
  rewrite E1 in Ec. unfold completions in *. rewrite filter_app in Ec. cbn [filter] in Ec. rewrite E2, Hb in Ec. discriminate.
Qed.
Lemma completions_app a b : completions (a ++ b) = completions a ++ completions b.
Proof. apply filter_app. Qed.
Lemma completions_is h : completions h = [] \/ exists l, completions h = ODone :: l.
Proof.
  destruct (completions h) as [|o l] eqn:Ec; [now left|right]. exists l.
  assert (H : In o (completions h)) by (rewrite Ec; now left). apply filter_In in H. destruct H as [_ H]. destruct o; try discriminate. reflexivity.
Qed.
Lemma step_err es e : exists new, a_history (run (es ++ [e])) = a_history (run es) ++ new /\
  k_err (krun (es ++ [e])) = k_err (krun es) ++ flat_map (on_done rtts el (run (es ++ [e]))) (completions new).
Proof.
  destruct (grows P C (run es) e) as (l & H1 & _). rewrite a_run_snoc. exists (rev l).
  split; [unfold a_history; rewrite H1; apply rev_app_distr|].
  rewrite k_snoc. unfold k_step, k_update. cbn [k_err]. rewrite k_pipe_run. rewrite (new_signals_app el _ _ l H1). now rewrite flat_done.
Qed.
Lemma none_before a b : completions (a_history (run (a ++ b))) = [] -> completions (a_history (run a)) = [].
Proof.
  induction b as [|y b IHb] using rev_ind; [rewrite app_nil_r; auto|]. intros H1. apply IHb.
  rewrite app_assoc in H1. destruct (step_err (a ++ b) y) as (n & K & _). rewrite K, completions_app in H1. now apply app_eq_nil in H1.
Qed.
Lemma start_err : k_err (krun []) = flat_map (on_done rtts el (run [])) (completions (a_history (run []))).
Proof.
  change (krun []) with (k_start P C cwnd rttVar sRtt rtts el). unfold k_start, k_update. cbn [k_err k_pipe app].
  destruct (start_tr P C) as (l & H1 & _). rewrite (new_signals_app el (a_init P) _ l) by (rewrite H1; symmetry; apply app_nil_r).
  rewrite flat_done. unfold a_history. change (run []) with (doRun P C (a_init P)). now rewrite H1.
Qed.
Lemma err_ok es : (passed es < ns_max)%Z -> countable (a_history (run es)) ->
  completions (a_history (run es)) = [] /\ k_err (krun es) = [] \/
  completions (a_history (run es)) = [ODone] /\
  exists es1 es2, es = es1 ++ es2 /\ completions (a_history (run es1)) = [ODone] /\
    (forall a b, es1 = a ++ b -> b <> [] -> completions (a_history (run a)) = []) /\
    full_report el (a_now (run es1)) (rtts (a_rtt (run es1))) (a_history (run es1)) (k_err (krun es)).
Proof.
  induction es as [|e es IH] using rev_ind; intros Hp HC.
  - pose proof (done_once (a_history (run [])) (ex_intro _ [] eq_refl)) as Ho. rewrite start_err.
    destruct (completions_is (a_history (run []))) as [->|(l & Hl)]; [now left|right]. rewrite Hl in *. destruct l; [|cbn in Ho; lia].
    split; [reflexivity|]. exists [], []. split; [reflexivity|]. split; [exact Hl|]. split; [intros [|] [|]; try discriminate; congruence|].
    cbn [flat_map on_done]. rewrite app_nil_r. now apply text_ok.
  - destruct (step_err es e) as (new & G1 & G2). rewrite passed_snoc in Hp.
    assert (0 <= match e with AeTick dt => Z.of_N dt | _ => 0 end)%Z by (destruct e; lia).
    assert (HC' : countable (a_history (run es))).
    { destruct HC as [HC1 HC2]. rewrite G1 in HC1, HC2. unfold countable, bytes_delivered in *. rewrite app_length in HC1.
      rewrite deliveries_app in HC2. rewrite map_app, concat_app, app_length in HC2. split; lia. }
    pose proof (done_once (a_history (run (es ++ [e]))) (ex_intro _ _ eq_refl)) as Ho.
    rewrite G1, completions_app in Ho |- *. rewrite app_length in Ho.
    destruct IH as [[H1 H2]|(H1 & es1 & es2 & H2 & H3 & H4 & H5)]; [lia|exact HC'| |].
    + rewrite G2, H1, H2 in *. cbn [app] in *. destruct (completions_is new) as [->|(l & Hl)]; [now left|right].
      rewrite Hl in *. destruct l; [|cbn in Ho; lia]. split; [reflexivity|]. exists (es ++ [e]), []. rewrite app_nil_r. split; [reflexivity|].
      split; [now rewrite G1, completions_app, H1, Hl|]. split.
      * intros a b Hab Hb. destruct (@exists_last _ b Hb) as (b' & x & ->). rewrite app_assoc in Hab. apply app_inj_tail in Hab. destruct Hab as [Hab _]. subst es.
        eapply none_before; exact H1.
      * cbn [flat_map on_done]. rewrite app_nil_r. apply text_ok; [rewrite passed_snoc; lia|exact HC].
    + rewrite H1 in *. destruct (completions new) as [|o l] eqn:En; [|cbn in Ho; lia]. right. split; [reflexivity|].
      exists es1, (es2 ++ [e]). split; [now rewrite H2, app_assoc|]. split; [exact H3|]. split; [exact H4|].
      rewrite G2. cbn [flat_map]. now rewrite app_nil_r.
Qed.

(** the time of the completing event *)
Lemma done_now es : completions (a_history (run es)) = [ODone] ->
  (forall a b, es = a ++ b -> b <> [] -> completions (a_history (run a)) = []) -> a_now (run es) = passed es.
Proof.
  intros H1 H2. destruct (@exists_last' _ es) as [->|(es' & e & ->)]; [exact (proj1 (proj2 (proj2 (q_start P C))))|].
  assert (H3 : completions (a_history (run es')) = []) by (apply (H2 es' [e]); [reflexivity|discriminate]).
  assert (Hc : a_crashed (run es') = false).
  { destruct (a_crashed (run es')) eqn:Ec; [|reflexivity]. exfalso. rewrite a_run_snoc in H1. unfold a_step in H1. rewrite Ec, H3 in H1. discriminate. }
  destruct (now_run P C es') as [Hn|Hn]; [|congruence].
  assert (Ht : forall dt, e <> AeTick dt).
  { intros dt ->. rewrite a_run_snoc in H1. unfold a_step in H1. rewrite Hc in H1. unfold a_history in *. cbn [a_tr set_now] in H1. rewrite H3 in H1. discriminate. }
  rewrite a_run_snoc, passed_snoc. pose proof (l_step P C (run es') e) as HL.
  destruct e; try (exfalso; eapply Ht; reflexivity); destruct HL as [-> _]; rewrite Hn; lia.
Qed.
Lemma err_ok' es : (passed es < ns_max)%Z -> countable (a_history (run es)) ->
  completions (a_history (run es)) = [] /\ k_err (krun es) = [] \/
  completions (a_history (run es)) = [ODone] /\
  exists es1 es2, es = es1 ++ es2 /\ completions (a_history (run es1)) = [ODone] /\
    (forall a b, es1 = a ++ b -> b <> [] -> completions (a_history (run a)) = []) /\
    full_report el (passed es1) (rtts (a_rtt (run es1))) (a_history (run es1)) (k_err (krun es)).
Proof.
  intros Hp HC. destruct (err_ok es Hp HC) as [H|(H1 & es1 & es2 & H2 & H3 & H4 & H5)]; [now left|right]. split; [exact H1|].
  exists es1, es2. rewrite (done_now es1 H3 H4) in H5. auto.
Qed.
End K.
