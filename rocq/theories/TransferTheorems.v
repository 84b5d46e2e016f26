(** A transfer whose losses stay within the limit on retries succeeds. *)
From Verif Require Import Base BaseFacts TlvModel TlvProofs PipelineBase PipelineSpec ProgressSpec FetcherModel PutchunksModel PutchunksSpec PutchunksProofs DiscoverModel DiscoverSpec.
From Verif Require Import AdaptiveModel AdaptiveProofs AdaptiveInv2 AdaptiveTheorems AdaptiveProgress AdaptiveLive AdaptiveEnd.
From Verif Require Import FixedModel FixedSpec FixedTheorems FixedEndSpec FixedEndLoss.
From Verif Require Import CatchunksModel CatchunksSpec ChunksTheorems ExitModel ExitProofs ExitProofs2 ExitTheorems.
From Verif Require Import Double WindowModel WindowTheorems.
Local Open Scope Z_scope.

Lemma genuine_honest chunks h : genuine_history chunks h -> honest (N.of_nat (length chunks - 1)) h.
Proof.
  intros Hg k d Hi. destruct (Hg k d Hi) as (H1 & _ & H2). split; [|exact H2].
  assert (N.to_nat k < length chunks)%nat by (apply nth_error_Some; congruence). lia.
Qed.

Section Adaptive.
Context {W R : Type}.
Variable P : policy W R.
Variables (dc : dconfig) (des : list devent) (r : Z) (ign dis : bool) (f : nat -> aevent).
Notation C := (catchunks_config r ign dis).
Notation S m := (a_run P (catchunks_config r ign dis) (first m f)).
Notation h m := (a_history (a_run P (catchunks_config r ign dis) (first m f))).

Lemma h_grows m m' o : (m <= m')%nat -> In o (h m) -> In o (h m').
Proof.
  intros Hm H. apply in_h. apply in_h in H. replace m' with (m + (m' - m))%nat by lia.
  rewrite first_app. unfold a_run in *. rewrite fold_left_app.
  generalize dependent (fold_left (a_step P C) (first m f) (doRun P C (a_init P))). intros s H. revert s H.
  induction (map f (seq m (m' - m))) as [|e l IH]; intros s H; [exact H|]. apply IH.
  eapply ext_in; [apply wk_step|exact H].
Qed.

Theorem adaptive_succeeds chunks vname b B :
  (forall m, genuine_history chunks (h m)) ->
  (forall m, open_window (p_floor P (p_initW P)) (h m)) -> (forall w, p_floor P w <= B) ->
  (forall m seg rr, ~ refused (h m) seg rr) ->
  (forall m seg, count (lost seg) (h m) <= b) -> (r = -1 \/ b <= Z.max 1 r) ->
  keeps_going f -> (forall i, f i <> AeCancel) -> In (DoSuccess vname) (d_run dc des) ->
  exists m0, forall m, (m0 <= m)%nat ->
    catchunks_status (d_run dc des) (a_working (S m)) (h m) = Some 0 /\ catchunks_stdout (h m) = concat chunks.
Proof.
  intros Hg Hw HB Hn Hl Hb Hgo Hc Hd.
  destruct (bounded_loss_ends C P (N.of_nat (length chunks - 1)) f b B (fun m => genuine_honest _ _ (Hg m)) Hw HB Hn Hl Hb Hgo) as [m0 Hend].
  assert (Hnc : forall m, ~ In AeCancel (first m f)).
  { intros m Hi. apply in_map_iff in Hi. destruct Hi as (i & Hi & _). now apply (Hc i). }
  assert (Hdone : In ODone (h m0)).
  { destruct (jrun P C eq_refl (first m0 f)) as (J1 & _ & _ & _ & J5).
    destruct Hend as [Hend|Hend].
    - apply existsb_exists in Hend. destruct Hend as (o & Ho & Hov).
      destruct o as [| | | | | |rs| | | | | | | | | | |]; try discriminate; [| |exact Ho].
      + exfalso. apply (Hnc m0), J5. now apply in_h.
      + exfalso. apply (no_failure C P (first m0 f) (Hn m0)).
        * destruct Hb as [Hb|Hb]; [now left|right]. intros seg. specialize (Hl m0 seg). cbn [c_maxRetries catchunks_config]. lia.
        * right. exists rs. now apply in_h.
    - exfalso. apply in_h, J1, cause_rev in Hend. destruct Hend as [(k & d & H1 & H2)|(k & d & H1 & H2)].
      + apply in_split in H1. destruct H1 as (h1 & h2 & E).
        destruct (adaptive_delivery_genuine P C (first m0 f) h1 k d h2 E) as [H _].
        destruct (Hg m0 k d) as (_ & Ha & _); [|congruence]. unfold a_history. rewrite E. apply in_or_app. now left.
      + destruct (Hg m0 k d H1) as (_ & _ & [H|H]); congruence. }
  exists m0. intros m Hm. pose proof (h_grows _ _ _ Hm Hdone) as Hdm.
  pose proof (exit_adaptive_done P dc des r ign dis (first m f) chunks vname (Hg m) Hd Hdm) as H0.
  split; [exact H0|]. exact (exit_adaptive_output P dc des r ign dis (first m f) chunks (Hnc m) (Hg m) H0).
Qed.
End Adaptive.

Lemma to_int64_small x : to_int64 x <= 9223372036854775807.
Proof.
  unfold to_int64. destruct (_ && _) eqn:E; [|lia]. apply andb_prop in E. destruct E as [_ E]. apply Z.ltb_lt in E. lia.
Qed.

Theorem aimd_succeeds R (o : aimd_opts) (r0 : R) rto sample backoff dc des (r : Z) ign dis f chunks vname b :
  aimd_sane o -> aimd_moderate o ->
  let S m := a_run (aimd_policy o r0 rto sample backoff) (catchunks_config r ign dis) (first m f) in
  let h m := a_history (S m) in
  (forall m, Z.of_nat (length (filter (fun x => match x with OWindow _ => true | _ => false end) (h m))) <= 4398046511104) ->
  (forall m, genuine_history chunks (h m)) ->
  (forall m seg rr, ~ refused (h m) seg rr) ->
  (forall m seg, count (lost seg) (h m) <= b) -> (r = -1 \/ b <= Z.max 1 r) ->
  keeps_going f -> (forall i, f i <> AeCancel) -> In (DoSuccess vname) (d_run dc des) ->
  exists m0, forall m, (m0 <= m)%nat ->
    catchunks_status (d_run dc des) (a_working (S m)) (h m) = Some 0 /\ catchunks_stdout (h m) = concat chunks.
Proof.
  intros Ho Hm. cbv beta zeta. intros Hlen Hg Hn Hl Hb Hgo Hc Hd.
  apply (adaptive_succeeds (aimd_policy o r0 rto sample backoff) dc des r ign dis f chunks vname b 9223372036854775807); auto.
  - intros m. split; [apply (aimd_allows' o []); auto; cbn; lia|].
    intros w Hw. eapply (aimd_pipeline R o r0 rto sample backoff); eauto.
  - intros w. apply to_int64_small.
Qed.

Section Fixed.
Variables (dc : dconfig) (des : list devent) (size : nat) (r : Z) (f : nat -> xevent).
Hypothesis Hsize : (0 < size)%nat.
Notation C := (XConfig size r d_appnack).
Notation S m := (x_run (XConfig size r d_appnack) (xfirst m f)).
Notation h m := (x_history (x_run (XConfig size r d_appnack) (xfirst m f))).

Lemma x_ext s e : ext (x_tr s) (x_tr (x_step C s e)).
Proof.
  unfold x_step. destruct (x_crashed s); [apply ext_refl|].
  assert (H : forall i d fe, ext (x_tr s) (x_tr (x_slotEvent C i d fe s))).
  { intros i d fe. destruct (xt_slotEvent C eq_refl i d fe s) as [(l & E & _)|(t1 & (l & E & _) & E2 & _)].
    - now exists l.
    - exists (OThrow :: l). rewrite E2, E. reflexivity. }
  destruct e; auto. destruct (xc_cancel (x_emit OGotCancel s)) as (l & E & _).
  exists (l ++ [OGotCancel]). rewrite E. cbn [x_emit x_tr]. now rewrite <- app_assoc.
Qed.

Theorem fixed_succeeds chunks vname b :
  (forall m, genuine_history chunks (h m)) ->
  (forall m seg rr, ~ refused (h m) seg rr) ->
  (forall m seg, count (nack_for seg) (h m) <= b) -> (forall m seg, count (expiry_for seg) (h m) <= b) ->
  (r = -1 \/ b <= r) ->
  (forall m, awaited (h m) <> [] -> exists j, (m <= j)%nat /\ h (Datatypes.S j) <> h j) ->
  (forall i, f i <> XeCancel) -> In (DoSuccess vname) (d_run dc des) ->
  exists m0, forall m, (m0 <= m)%nat ->
    catchunks_status (d_run dc des) (x_working (S m)) (h m) = Some 0 /\ catchunks_stdout (h m) = concat chunks.
Proof.
  intros Hg Hn Hl1 Hl2 Hb Hfair Hc Hd.
  assert (Hfin : forall m k d, In (OGotData k d) (h m) -> (k <= N.of_nat (length chunks - 1))%N).
  { intros m k d Hi. apply (genuine_honest _ _ (Hg m)) in Hi. apply Hi. }
  destruct (always_ends C Hsize _ f Hfin b Hl1 Hl2 Hfair) as [m0 Hend].
  assert (Hnc : forall m, ~ In XeCancel (xfirst m f)).
  { intros m Hi. apply in_map_iff in Hi. destruct Hi as (i & Hi & _). now apply (Hc i). }
  assert (Hgu : forall m h1 h2 seg, h m = h1 ++ h2 -> ~ gave_up r h1 seg).
  { intros m h1 h2 seg E [(rr & H1 & H2 & H3)|[H1 H2]].
    - apply (Hn m seg rr). split; [exact H1|]. split; [exact H2|]. rewrite E. apply in_or_app. now left.
    - destruct Hb as [Hb|Hb]; [congruence|]. specialize (Hl1 m seg). specialize (Hl2 m seg). rewrite E in Hl1, Hl2.
      unfold count in Hl1, Hl2, H2. rewrite filter_app, app_length in Hl1, Hl2. lia. }
  assert (Hdone : In ODone (h m0)).
  { destruct Hend as [Hend|Hend].
    - apply existsb_exists in Hend. destruct Hend as (o & Ho & Hov).
      destruct o as [| | | | | |rs| | | | | | | | | | |]; try discriminate; [| |exact Ho].
      + exfalso. apply (Hnc m0), (proj2 (xrun_throws C eq_refl (xfirst m0 f))). now apply in_xh.
      + exfalso. apply in_split in Ho. destruct Ho as (h1 & h2 & E).
        pose proof (fixed_failure C (xfirst m0 f) Hsize h1 rs h2 E) as HF.
        destruct rs; try contradiction; cbn in HF;
          [destruct HF as (seg & HF)|destruct HF as (HF & _)|destruct HF as (HF & _)]; eapply Hgu; eauto.
    - exfalso. apply in_xh, (proj1 (xrun_throws C eq_refl (xfirst m0 f))), cause_rev in Hend.
      destruct Hend as [(k & d & H1 & H2)|(k & d & H1 & H2)].
      + apply in_split in H1. destruct H1 as (h1 & h2 & E).
        destruct (fixed_delivery_genuine C (xfirst m0 f) Hsize h1 k d h2 E) as [H _].
        destruct (Hg m0 k d) as (_ & Ha & _); [|congruence]. unfold x_history. rewrite E. apply in_or_app. now left.
      + destruct (Hg m0 k d H1) as (_ & _ & [H|H]); congruence. }
  exists m0. intros m Hm.
  assert (Hdm : In ODone (h m)).
  { replace m with (m0 + (m - m0))%nat by lia. generalize (m - m0)%nat as q. induction q as [|q IH]; [now rewrite Nat.add_0_r|].
    rewrite Nat.add_succ_r. apply in_xh. apply in_xh in IH. unfold xfirst at 1. rewrite seq_S, map_app. unfold x_run. rewrite fold_left_app.
    cbn [map fold_left]. fold (xfirst (m0 + q) f). change (fold_left (x_step C) (xfirst (m0 + q) f) _) with (S (m0 + q)%nat).
    eapply ext_in; [apply x_ext|exact IH]. }
  pose proof (exit_fixed_done dc des size r (xfirst m f) Hsize chunks vname (Hg m) Hd Hdm) as H0.
  split; [exact H0|]. exact (exit_fixed_output dc des size r (xfirst m f) Hsize chunks (Hnc m) (Hg m) H0).
Qed.
End Fixed.

(** ** end to end with ndnputchunks *)
Section Composed.
Variable digest : packet -> component.
Variable cv : convention.
Variable now0 : N.
Hypothesis Hnow : u64 now0.
Variable o : popts.
Hypothesis Hsize : (0 < po_size o)%nat.
Variable prefix : name.
Variable input : list N.
Hypothesis Hinput : u64 (N.of_nat (length input) + 1).
Notation P := (make_producer cv now0 o prefix input).

Theorem e2e_adaptive_succeeds W R (pol : policy W R) dc des (r : Z) ign dis (f : nat -> aevent) vname ccv mbf b B :
  let S m := a_run pol (catchunks_config r ign dis) (first m f) in
  let h m := a_history (S m) in
  encodable (pr_vprefix P) -> client_of digest cv P dc (d_run dc des) -> In (DoSuccess vname) (d_run dc des) ->
  (forall m, honest_network digest cv P ccv vname mbf (h m)) ->
  (forall m, open_window (p_floor pol (p_initW pol)) (h m)) -> (forall w, p_floor pol w <= B) ->
  (forall m seg rr, ~ refused (h m) seg rr) ->
  (forall m seg, count (lost seg) (h m) <= b) -> (r = -1 \/ b <= Z.max 1 r) ->
  keeps_going f -> (forall i, f i <> AeCancel) ->
  exists m0, forall m, (m0 <= m)%nat ->
    catchunks_status (d_run dc des) (a_working (S m)) (h m) = Some 0 /\ catchunks_stdout (h m) = input.
Proof.
  cbv beta zeta. intros Hok Hc Hd Hh Hw HB Hn Hl Hb Hgo Hnc.
  destruct (adaptive_succeeds pol dc des r ign dis f (pieces (po_size o) input) vname b B) as [m0 H]; auto.
  - intros m. exact (e2e_genuine digest cv now0 Hnow o Hsize prefix input Hinput dc des vname ccv mbf _ Hok Hc Hd (Hh m)).
  - exists m0. intros m Hm. specialize (H m Hm). unfold pieces in H. rewrite split_concat in H. exact H.
Qed.

Theorem e2e_fixed_succeeds dc des (size : nat) (r : Z) (f : nat -> xevent) vname ccv mbf b : (0 < size)%nat ->
  let S m := x_run (XConfig size r d_appnack) (xfirst m f) in
  let h m := x_history (S m) in
  encodable (pr_vprefix P) -> client_of digest cv P dc (d_run dc des) -> In (DoSuccess vname) (d_run dc des) ->
  (forall m, honest_network digest cv P ccv vname mbf (h m)) ->
  (forall m seg rr, ~ refused (h m) seg rr) ->
  (forall m seg, count (nack_for seg) (h m) <= b) -> (forall m seg, count (expiry_for seg) (h m) <= b) ->
  (r = -1 \/ b <= r) ->
  (forall m, awaited (h m) <> [] -> exists j, (m <= j)%nat /\ h (Datatypes.S j) <> h j) ->
  (forall i, f i <> XeCancel) ->
  exists m0, forall m, (m0 <= m)%nat ->
    catchunks_status (d_run dc des) (x_working (S m)) (h m) = Some 0 /\ catchunks_stdout (h m) = input.
Proof.
  intros Hs. cbv beta zeta. intros Hok Hc Hd Hh Hn Hl1 Hl2 Hb Hfair Hnc.
  destruct (fixed_succeeds dc des size r f Hs (pieces (po_size o) input) vname b) as [m0 H]; auto.
  - intros m. exact (e2e_genuine digest cv now0 Hnow o Hsize prefix input Hinput dc des vname ccv mbf _ Hok Hc Hd (Hh m)).
  - exists m0. intros m Hm. specialize (H m Hm). unfold pieces in H. rewrite split_concat in H. exact H.
Qed.
End Composed.
