(** Progress and success with the CUBIC pipeline. *)
From Verif Require Import Base BaseFacts TlvModel PipelineBase PipelineSpec ProgressSpec FetcherModel PutchunksModel PutchunksSpec DiscoverModel DiscoverSpec.
From Verif Require Import AdaptiveModel AdaptiveWindow AdaptiveLive AdaptiveEnd CatchunksModel CatchunksSpec ExitModel.
From Verif Require Import Double WindowModel WindowProofs WindowTheorems CubicRunSpec TransferTheorems.
From Coq Require Import Reals Lra.
From Flocq Require Import Core BinarySingleNaN.
Local Open Scope Z_scope.

(** a window of at least one Interest allows at least one Interest, unless it is too large to be
    converted *)
Lemma to_int64_either x : atleast 1 x -> to_int64 x = -9223372036854775808 \/ 1 <= to_int64 x.
Proof.
  intros [[H1 H2]| ->]; [|left; reflexivity].
  pose proof (trunc_atleast x 1 ltac:(lia) H1 H2) as H. unfold to_int64.
  destruct (_ && _); [right; exact H|left; reflexivity].
Qed.
Lemma cubic_ok_one o w : cubic_sane o -> cubic_ok o w -> atleast 1 (cw_cwnd w).
Proof. intros [_ H] Hw. eapply atleast_mono; [exact H|exact Hw]. Qed.

Lemma cubic_open R cbrt pow3 o (r0 : R) srtt rto sample backoff C es : cubic_sane o ->
  let P := cubic_policy cbrt pow3 o r0 srtt rto sample backoff in
  let h := a_history (a_run P C es) in
  convertible (p_floor P (p_initW P)) h -> open_window (p_floor P (p_initW P)) h.
Proof.
  intros HS P h [H0 Hh]. pose proof HS as [S1 S2]. split.
  - destruct (to_int64_either (cw_cwnd (cubic_init o))) as [E|E]; [|contradiction|exact E].
    apply (cubic_ok_one o); [exact HS|now apply cubic_ok_init].
  - intros z Hz.
    destruct (win_inv P C (fun _ w => cubic_ok o w)) with (es := es) as [_ H].
    + now apply cubic_ok_init.
    + intros. cbn [p_incr P cubic_policy]. now apply cubic_ok_increase.
    + intros. cbn [p_decr P cubic_policy]. now apply cubic_ok_decrease.
    + pose proof Hz as Hz'. unfold h, a_history in Hz. rewrite <- in_rev in Hz. apply in_wins in Hz.
      destruct (H z Hz) as (n & w & _ & Hok & ->).
      destruct (to_int64_either (cw_cwnd w)) as [E|E]; [now apply (cubic_ok_one o)| |exact E].
      exfalso. apply Hh. cbn [P cubic_policy p_floor] in Hz'. now rewrite E in Hz'.
Qed.

Lemma cubic_never_hangs R cbrt pow3 (o : cubic_opts) (r0 : R) srtt rto sample backoff (C : aconfig) (n : N) (es : list aevent) :
    cubic_sane o ->
    let P := cubic_policy cbrt pow3 o r0 srtt rto sample backoff in
    let h := a_history (a_run P C es) in
    convertible (p_floor P (p_initW P)) h ->
    honest n h -> on_track (c_maxRetries C) h -> existsb is_over h = false -> ~ In OThrow h ->
    outstanding h <> [].
Proof.
  intros Ho. cbv zeta. intros Hl Hh Ht Hov Hth.
  apply (never_hangs C (cubic_policy cbrt pow3 o r0 srtt rto sample backoff) n es); auto.
  now apply cubic_open.
Qed.

Theorem cubic_succeeds R cbrt pow3 (o : cubic_opts) (r0 : R) srtt rto sample backoff dc des (r : Z) ign dis f chunks vname b :
  cubic_sane o ->
  let P := cubic_policy cbrt pow3 o r0 srtt rto sample backoff in
  let S m := a_run P (catchunks_config r ign dis) (first m f) in
  let h m := a_history (S m) in
  (forall m, convertible (p_floor P (p_initW P)) (h m)) ->
  (forall m, genuine_history chunks (h m)) ->
  (forall m seg rr, ~ refused (h m) seg rr) ->
  (forall m seg, count (lost seg) (h m) <= b) -> (r = -1 \/ b <= Z.max 1 r) ->
  keeps_going f -> (forall i, f i <> AeCancel) -> In (DoSuccess vname) (d_run dc des) ->
  exists m0, forall m, (m0 <= m)%nat ->
    catchunks_status (d_run dc des) (a_working (S m)) (h m) = Some 0 /\ catchunks_stdout (h m) = concat chunks.
Proof.
  intros Ho. cbv beta zeta. intros Hlen Hg Hn Hl Hb Hgo Hc Hd.
  apply (adaptive_succeeds (cubic_policy cbrt pow3 o r0 srtt rto sample backoff) dc des r ign dis f chunks vname b 9223372036854775807); auto.
  - intros m. now apply cubic_open.
  - intros w. apply to_int64_small.
Qed.
