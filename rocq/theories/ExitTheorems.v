From Verif Require Import Base TlvModel TlvProofs PipelineBase PipelineSpec FetcherModel PutchunksModel PutchunksSpec DiscoverModel DiscoverSpec DiscoverProofs.
From Verif Require Import AdaptiveModel AdaptiveTheorems FixedModel FixedTheorems CatchunksModel CatchunksSpec ChunksTheorems.
From Verif Require Import ExitModel ExitProofs ExitProofs2.
Local Open Scope Z_scope.

Lemma ex_dfailure dh : existsb is_dfailure dh = true <-> In DoFailure dh.
Proof.
  rewrite existsb_exists. split; [|intros H; exists DoFailure; auto]. intros (o & H1 & H2). destruct o; try discriminate. exact H1.
Qed.
Lemma ex_dsuccess dh : existsb is_dsuccess dh = true <-> exists n, In (DoSuccess n) dh.
Proof.
  rewrite existsb_exists. split; [|intros (n & H); exists (DoSuccess n); auto]. intros (o & H1 & H2).
  destruct o; try discriminate. eauto.
Qed.

Lemma whole dc des w h st : catchunks_status (d_run dc des) w h = Some st ->
  st = 1 /\ In DoFailure (d_run dc des) \/
  (exists n, In (DoSuccess n) (d_run dc des)) /\ pipeline_status w h = Some st.
Proof.
  unfold catchunks_status. destruct (existsb is_dfailure _) eqn:E1.
  - intros [= <-]. left. split; [reflexivity|]. now apply ex_dfailure.
  - destruct (existsb is_dsuccess _) eqn:E2; [|discriminate]. intros H. right. split; [now apply ex_dsuccess|exact H].
Qed.
Lemma whole_success dc des w h n : In (DoSuccess n) (d_run dc des) -> catchunks_status (d_run dc des) w h = pipeline_status w h.
Proof.
  intros H. unfold catchunks_status. assert (E : existsb is_dsuccess (d_run dc des) = true) by (apply ex_dsuccess; eauto).
  rewrite E. destruct (existsb is_dfailure _) eqn:E1; [exfalso|reflexivity].
  apply ex_dfailure in E1. apply in_split in E1. destruct E1 as (h1 & h2 & E1).
  destruct (discovery_outcome_last dc des h1 DoFailure h2 E1 eq_refl) as [-> Hq].
  rewrite E1 in H. apply in_app_or in H. destruct H as [H|[H|[]]]; [|discriminate].
  unfold quiet in Hq. rewrite Forall_forall in Hq. specialize (Hq _ H). discriminate.
Qed.

Section Fixed.
Variables (dc : dconfig) (des : list devent) (size : nat) (r : Z) (es : list xevent).
Hypothesis Hsize : (0 < size)%nat.
Notation s := (x_run (XConfig size r d_appnack) es).
Notation h := (x_history (x_run (XConfig size r d_appnack) es)).
Notation status := (catchunks_status (d_run dc des) (x_working (x_run (XConfig size r d_appnack) es))
                                     (x_history (x_run (XConfig size r d_appnack) es))).

Theorem exit_fixed_success : ~ In XeCancel es -> status = Some 0 ->
  exists n, known_last h = Some n /\ forall k, (k <= n)%N -> In k (map fst (deliveries h)).
Proof.
  intros Hn H. destruct (whole _ _ _ _ _ H) as [[H1 _]|[_ H1]]; [discriminate|].
  now destruct (fixed_zero (XConfig size r d_appnack) eq_refl es Hsize Hn H1) as [_ H2].
Qed.
Theorem exit_fixed_output chunks : ~ In XeCancel es -> genuine_history chunks h -> status = Some 0 -> catchunks_stdout h = concat chunks.
Proof.
  intros Hn Hg H. destruct (whole _ _ _ _ _ H) as [[H1 _]|[_ H1]]; [discriminate|].
  destruct (fixed_zero (XConfig size r d_appnack) eq_refl es Hsize Hn H1) as [H2 _].
  exact (fixed_stdout_done (XConfig size r d_appnack) es Hsize chunks H2 Hg).
Qed.
Theorem exit_fixed_done chunks n : genuine_history chunks h -> In (DoSuccess n) (d_run dc des) -> In ODone h -> status = Some 0.
Proof.
  intros Hg Hs Hd. rewrite (whole_success _ _ _ _ _ Hs). exact (fixed_done_zero (XConfig size r d_appnack) eq_refl es Hsize chunks Hg Hd).
Qed.
Theorem exit_fixed_appnack : status = Some 3 <->
  (exists n, In (DoSuccess n) (d_run dc des)) /\ exists k d, In (ODeliver k d) h /\ d_appnack d = true.
Proof.
  split.
  - intros H. destruct (whole _ _ _ _ _ H) as [[H1 _]|[H0 H1]]; [discriminate|]. split; [exact H0|]. now apply fixed_three in H1.
  - intros [(n & Hn) H]. rewrite (whole_success _ _ _ _ _ Hn). now apply fixed_three.
Qed.
Theorem exit_fixed_failure : status = Some 1 ->
  In DoFailure (d_run dc des) \/ (exists reason, In (OFail reason) h) \/ exists k d, In (OGotData k d) h /\ d_fbi d = FbiInvalid.
Proof.
  intros H. destruct (whole _ _ _ _ _ H) as [[_ H1]|[H0 H1]]; [now left|]. right. now apply (fixed_one (XConfig size r d_appnack) eq_refl) in H1.
Qed.
End Fixed.

Section Adaptive.
Context {W R : Type}.
Variable P : policy W R.
Variables (dc : dconfig) (des : list devent) (r : Z) (ign dis : bool) (es : list aevent).
Notation s := (a_run P (catchunks_config r ign dis) es).
Notation h := (a_history (a_run P (catchunks_config r ign dis) es)).
Notation status := (catchunks_status (d_run dc des) (a_working (a_run P (catchunks_config r ign dis) es))
                                     (a_history (a_run P (catchunks_config r ign dis) es))).

Theorem exit_adaptive_output chunks : ~ In AeCancel es -> genuine_history chunks h -> status = Some 0 -> catchunks_stdout h = concat chunks.
Proof.
  intros Hn Hg H. destruct (whole _ _ _ _ _ H) as [[H1 _]|[_ H1]]; [discriminate|].
  pose proof (adaptive_zero P (catchunks_config r ign dis) eq_refl es Hn H1) as H2.
  exact (adaptive_stdout_done P _ es chunks H2 Hg).
Qed.
Theorem exit_adaptive_done chunks n : genuine_history chunks h -> In (DoSuccess n) (d_run dc des) -> In ODone h -> status = Some 0.
Proof.
  intros Hg Hs Hd. rewrite (whole_success _ _ _ _ _ Hs). exact (adaptive_done_zero P (catchunks_config r ign dis) eq_refl es chunks Hg Hd).
Qed.
Theorem exit_adaptive_appnack : status = Some 3 <->
  (exists n, In (DoSuccess n) (d_run dc des)) /\ exists k d, In (ODeliver k d) h /\ d_appnack d = true.
Proof.
  split.
  - intros H. destruct (whole _ _ _ _ _ H) as [[H1 _]|[H0 H1]]; [discriminate|]. split; [exact H0|]. now apply adaptive_three in H1.
  - intros [(n & Hn) H]. rewrite (whole_success _ _ _ _ _ Hn). now apply adaptive_three.
Qed.
Theorem exit_adaptive_failure : status = Some 1 ->
  In DoFailure (d_run dc des) \/ (exists reason, In (OFail reason) h) \/ exists k d, In (OGotData k d) h /\ d_fbi d = FbiInvalid.
Proof.
  intros H. destruct (whole _ _ _ _ _ H) as [[_ H1]|[H0 H1]]; [now left|]. right. now apply (adaptive_one P (catchunks_config r ign dis) eq_refl) in H1.
Qed.
End Adaptive.

Lemma exit_values dc des w h st : catchunks_status (d_run dc des) w h = Some st -> st = 0 \/ st = 1 \/ st = 3.
Proof.
  intros H. destruct (whole _ _ _ _ _ H) as [[H1 _]|[_ H1]]; [auto|].
  apply status_facts in H1. destruct H1 as [[H1 _]|[_ [[H1 _]|[H1 _]]]]; auto.
Qed.

(** ** end to end *)
Section Composed.
Variable digest : packet -> component.
Variable cv : convention.
Variable now0 : N.
Hypothesis Hnow : u64 now0.
Variable o : popts.
Hypothesis Hsize : (0 < po_size o)%nat.
Variable prefix : name.
Variable input : list N.
Hypothesis Hinput : u64 (N.of_nat (length input) + 1).
Notation P := (make_producer cv now0 o prefix input).

Lemma transfer_fixed size r es dc des ccv mbf : (0 < size)%nat -> ~ In XeCancel es ->
  encodable (pr_vprefix P) -> client_of digest cv P dc (d_run dc des) ->
  let s := x_run (XConfig size r d_appnack) es in
  let h := x_history s in
  (forall vname, In (DoSuccess vname) (d_run dc des) -> honest_network digest cv P ccv vname mbf h) ->
  catchunks_status (d_run dc des) (x_working s) h = Some 0 -> catchunks_stdout h = input.
Proof.
  intros Hs Hn Hok Hc s h Hh H. destruct (whole _ _ _ _ _ H) as [[H1 _]|[(v & Hv) H1]]; [discriminate|].
  destruct (fixed_zero (XConfig size r d_appnack) eq_refl es Hs Hn H1) as [H2 _].
  apply (e2e_fixed digest cv now0 Hnow o Hsize prefix input Hinput (XConfig size r d_appnack) es dc des v ccv mbf Hs Hok Hc Hv); auto.
Qed.
Lemma transfer_adaptive W R (pol : policy W R) r ign dis es dc des ccv mbf : ~ In AeCancel es ->
  encodable (pr_vprefix P) -> client_of digest cv P dc (d_run dc des) ->
  let s := a_run pol (catchunks_config r ign dis) es in
  let h := a_history s in
  (forall vname, In (DoSuccess vname) (d_run dc des) -> honest_network digest cv P ccv vname mbf h) ->
  catchunks_status (d_run dc des) (a_working s) h = Some 0 -> catchunks_stdout h = input.
Proof.
  intros Hn Hok Hc s h Hh H. destruct (whole _ _ _ _ _ H) as [[H1 _]|[(v & Hv) H1]]; [discriminate|].
  pose proof (adaptive_zero pol (catchunks_config r ign dis) eq_refl es Hn H1) as H2.
  apply (e2e_adaptive digest cv now0 Hnow o Hsize prefix input Hinput pol (catchunks_config r ign dis) es dc des v ccv mbf Hok Hc Hv); auto.
Qed.
End Composed.
