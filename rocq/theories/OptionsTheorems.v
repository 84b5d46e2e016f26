From Verif Require Import Base PipelineBase FetcherModel FixedModel AdaptiveModel CatchunksModel Double WindowModel OptionsModel OptionsSpec OptionsProofs.
From Coq Require Import String Lia Reals Lra.
From Coq Require Import List.
From Flocq Require Import Core BinarySingleNaN.
Import ListNotations.
Local Open Scope Z_scope.

Lemma cat_accepts name_ok writable o : cat_documented o -> rto_representable o -> name_ok (cc_prefix o) = true -> logs_writable writable o ->
  exists j, cat_main name_ok writable (Parsed false false o) = Proceed j /\ job_matches o j.
Proof.
  intros D R N L. rewrite (cat_ok name_ok writable o D R N L). eexists. split; [reflexivity|].
  destruct D as (_ & _ & _ & _ & _ & D6 & _ & _ & D9). cbn [In] in D9.
  destruct D9 as [E|[E|[E|[]]]]; rewrite <- E; cbn [String.eqb Ascii.eqb Bool.eqb]; cbn; rewrite <- E; repeat split. lia.
Qed.

Lemma cat_proceeds_matches name_ok writable help version o j :
  cat_main name_ok writable (Parsed help version o) = Proceed j -> job_matches o j /\ 1 <= cc_size o <= 1024.
Proof.
  unfold cat_main. intros H. cbn [checks] in H.
  repeat match type of H with (if ?c then _ else _) = _ => destruct c eqn:?; try discriminate H end.
  all: injection H as <-; cbn.
  all: repeat match goal with
    | H : (_ || _)%bool = true |- _ => apply orb_true_iff in H
    | H : (_ || _)%bool = false |- _ => apply orb_false_iff in H; destruct H
    | H : String.eqb _ _ = true |- _ => apply String.eqb_eq in H
    end.
  all: repeat match goal with H : (cc_size _ <? 1) = false |- _ => apply Z.ltb_ge in H | H : (1024 <? cc_size _) = false |- _ => apply Z.ltb_ge in H end.
  - assert (K : 1 <= cc_size o <= 1024) by (split; assumption). repeat split; auto; try apply K. apply Z2Nat.id. clear - K. lia.
  - assert (K : 1 <= cc_size o <= 1024) by (split; assumption). repeat split; auto; apply K.
  - assert (K : 1 <= cc_size o <= 1024) by (split; assumption). match goal with H : _ \/ _ |- _ => destruct H as [H|H]; [rewrite H in *; discriminate|apply String.eqb_eq in H] end. repeat split; auto; apply K.
Qed.

Lemma cat_exit_codes name_ok writable c n : cat_main name_ok writable c = Exit n ->
  (n = 0 /\ exists o h v, c = Parsed h v o /\ (h = true \/ v = true)) \/
  (n = 1 /\ exists h v o, c = Parsed h v o /\ name_ok (cc_prefix o) = false) \/
  n = 2 \/
  (n = 4 /\ exists h v o, c = Parsed h v o /\ ~ logs_writable writable o).
Proof.
  destruct c as [h v o| |]; cbn; intros H; try (injection H as <-; auto; fail).
  repeat match type of H with (if ?c then _ else _) = _ => destruct c eqn:?; try discriminate H end; injection H as <-; auto.
  - left. split; [reflexivity|]. exists o, true, v. auto.
  - left. split; [reflexivity|]. exists o, false, true. auto.
  - right. left. split; [reflexivity|]. exists false, false, o. split; [reflexivity|]. destruct (name_ok (cc_prefix o)); [discriminate|reflexivity].
  - right. right. right. split; [reflexivity|]. exists false, false, o. split; [reflexivity|]. unfold logs_writable.
    match goal with H : (_ && _)%bool = true |- _ => apply andb_true_iff in H; destruct H as [A B] end.
    match goal with H : String.eqb (cc_type o) "fixed" = false |- _ => apply String.eqb_neq in H end.
    intros [?|[[X|X] _]]; [contradiction| |]; [rewrite X in A; discriminate|rewrite X in B; discriminate].
  - right. right. right. split; [reflexivity|]. exists false, false, o. split; [reflexivity|]. unfold logs_writable.
    match goal with H : (_ && _)%bool = true |- _ => apply andb_true_iff in H; destruct H as [A B] end.
    match goal with H : String.eqb (cc_type o) "fixed" = false |- _ => apply String.eqb_neq in H end.
    intros [?|[_ [X|X]]]; [contradiction| |]; [rewrite X in A; discriminate|rewrite X in B; discriminate].
Qed.

Section Start.
Context {R : Type} (r0 : R) (srtt rto : R -> Z) (sample : Z -> Z -> R -> R) (backoff : R -> R) (cbrt pow3 : f64 -> f64).
Notation start := (cat_start r0 srtt rto sample backoff cbrt pow3).

Lemma window_ge1 o j : job_matches o j -> 1 <= cc_size o ->
  (1 <= job_window j <-> cc_type o = "fixed"%string \/ (is_finite (cc_initCwnd o) = true /\ (1 <= B2R (cc_initCwnd o) < bpow radix2 63)%R)).
Proof.
  intros M S. destruct j as [C|C a|C a]; cbn in M; cbn [job_window].
  - destruct M as (T & M & _). split; [now left|lia].
  - destruct M as (T & _ & M & _). rewrite M, to_int64_ge1, T. split; [now right|]. intros [H|H]; [discriminate|exact H].
  - destruct M as (T & _ & M & _). rewrite M, to_int64_ge1, T. split; [now right|]. intros [H|H]; [discriminate|exact H].
Qed.

Lemma cat_first_interest name_ok writable help version o j :
  cat_main name_ok writable (Parsed help version o) = Proceed j ->
  (In (OInterest 0 false) (start j) <->
   cc_type o = "fixed"%string \/ (is_finite (cc_initCwnd o) = true /\ (1 <= B2R (cc_initCwnd o) < bpow radix2 63)%R)).
Proof.
  intros H. apply cat_proceeds_matches in H. destruct H as [M S]. rewrite <- (window_ge1 o j M) by lia.
  rewrite start_burst. split.
  - destruct (Z_le_gt_dec 1 (job_window j)) as [|G]; [auto|]. replace (Z.to_nat (job_window j)) with O by lia. contradiction.
  - intros G. apply in_burst0. lia.
Qed.

Lemma cat_burst name_ok writable help version o j :
  cat_main name_ok writable (Parsed help version o) = Proceed j ->
  cc_type o = "fixed"%string \/ (is_finite (cc_initCwnd o) = true /\ (1 <= B2R (cc_initCwnd o) < bpow radix2 63)%R) ->
  exists n, start j = map (fun i => OInterest (N.of_nat i) false) (seq 0 n) /\
    (cc_type o = "fixed"%string -> Z.of_nat n = cc_size o) /\
    (cc_type o <> "fixed"%string -> (IZR (Z.of_nat n) <= B2R (cc_initCwnd o) < IZR (Z.of_nat n) + 1)%R).
Proof.
  intros H G. apply cat_proceeds_matches in H. destruct H as [M S]. pose proof (proj2 (window_ge1 o j M (proj1 S)) G) as G'.
  exists (Z.to_nat (job_window j)). rewrite start_burst. split; [reflexivity|]. rewrite Z2Nat.id by lia.
  assert (F : forall x, x = cc_initCwnd o -> cc_type o <> "fixed"%string -> (IZR (to_int64 x) <= B2R (cc_initCwnd o) < IZR (to_int64 x) + 1)%R).
  { intros x -> T. destruct G as [G|[G1 G2]]; [contradiction|]. clear -G1 G2. unfold to_int64. rewrite G1. cbn [andb].
    assert (E : Btrunc (cc_initCwnd o) = Ztrunc (B2R (cc_initCwnd o))).
    { apply eq_IZR. rewrite Btrunc_correct by (reflexivity || lia). unfold round, scaled_mantissa, cexp, FIX_exp, F2R. cbn. now rewrite !Rmult_1_r. }
    rewrite E, Ztrunc_floor by lra. pose proof (Zfloor_lb (B2R (cc_initCwnd o))). pose proof (Zfloor_ub (B2R (cc_initCwnd o))).
    assert (0 <= Zfloor (B2R (cc_initCwnd o)))%Z by (apply Zfloor_lub; cbn; lra).
    destruct (Z.ltb_spec (Z.abs (Zfloor (B2R (cc_initCwnd o)))) 9223372036854775808) as [L|L]; [lra|].
    exfalso. assert (IZR 9223372036854775808 <= IZR (Zfloor (B2R (cc_initCwnd o))))%R by (apply IZR_le; lia).
    change (bpow radix2 63) with (IZR 9223372036854775808) in G2. lra. }
  destruct j as [C|C a|C a]; cbn in M; cbn [job_window] in *.
  - destruct M as (T & M & _). split; [auto|contradiction].
  - destruct M as (T & _ & M & _). split; [rewrite T; discriminate|]. intros N. now apply F.
  - destruct M as (T & _ & M & _). split; [rewrite T; discriminate|]. intros N. now apply F.
Qed.
End Start.
