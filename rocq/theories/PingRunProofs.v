(** Proofs about ndnping as a program. *)
From Verif Require Import Base TlvModel PingModel PingSpec PingProofs PingStatsModel PingStatsSpec PeekModel PeekPokeModel PeekWireModel
  DumpModel DissectSpec PingTextModel PingTextSpec PingTextProofs PingTextProofs2 PeekRunModel PingRunModel PingRunSpec.
From Coq Require Import String List Lia Permutation.
Import ListNotations.
Local Open Scope Z_scope.
Local Open Scope list_scope.

(** * The statistics depend on the outcomes only *)
Ltac by_outcomes h := induction h as [|[] h IH]; [reflexivity|..]; first [exact IH | exact (f_equal _ IH)].
Lemma data_outcomes h : data_seqs (outcomes h) = data_seqs h. Proof. by_outcomes h. Qed.
Lemma nack_outcomes h : nack_seqs (outcomes h) = nack_seqs h. Proof. by_outcomes h. Qed.
Lemma timeout_outcomes h : timeout_seqs (outcomes h) = timeout_seqs h. Proof. by_outcomes h. Qed.
Lemma rtts_outcomes h : rtts (outcomes h) = rtts h. Proof. by_outcomes h. Qed.
Lemma settled_outcomes h : settled_seqs (outcomes h) = settled_seqs h.
Proof. unfold settled_seqs. now rewrite data_outcomes, nack_outcomes, timeout_outcomes. Qed.
Lemma summary_outcomes h t : summary h t -> summary (outcomes h) t.
Proof.
  unfold summary, says_rates, says_rtts, shows_deviation, variance, mean_sq.
  now rewrite data_outcomes, settled_outcomes, timeout_outcomes, nack_outcomes, rtts_outcomes.
Qed.
Lemma report_outcomes u h t : report u h t -> report u (outcomes h) t.
Proof.
  unfold report, says_rates, says_rtts, shows_deviation, variance, mean_sq.
  now rewrite data_outcomes, settled_outcomes, timeout_outcomes, nack_outcomes, rtts_outcomes.
Qed.

(** * The client *)
Section Client.
Variable o : gopts.
Hypothesis Hopt : valid_gopts o.

Definition cancelled_ok (b : Prop) (s : client) : Prop := c_cancelled s = true <-> b \/ In GFinish (c_hist s).
Lemma finish_cancelled b s : cancelled_ok b s -> cancelled_ok b (c_finish s).
Proof.
  unfold cancelled_ok, c_finish. cbn [c_nOut]. destruct (_ >=? 0); cbn; [tauto|]. intros _. rewrite in_app_iff. cbn. tauto.
Qed.
Lemma perform_cancelled b s : cancelled_ok b s -> cancelled_ok b (performPing o s).
Proof.
  intros H. unfold performPing. destruct (negb _).
  - unfold cancelled_ok in *. cbn. rewrite in_app_iff. cbn. rewrite H. intuition discriminate.
  - cbn zeta. destruct (_ || _); [|apply finish_cancelled]; unfold cancelled_ok in *; cbn; rewrite in_app_iff; cbn; rewrite H; intuition discriminate.
Qed.
Lemma answer_cancelled b s k x : x <> GFinish -> cancelled_ok b s -> cancelled_ok b (c_answer k x s).
Proof.
  intros Hx H. unfold c_answer. destruct (existsb _ _); [|exact H]. apply finish_cancelled. unfold cancelled_ok in *. cbn.
  rewrite in_app_iff. cbn. rewrite H. intuition congruence.
Qed.
Lemma run_cancelled ges : cancelled_ok (In GeInterrupt ges) (g_run o ges).
Proof.
  induction ges as [|e ges IH] using rev_ind.
  - apply perform_cancelled. unfold cancelled_ok. cbn. intuition discriminate.
  - rewrite run_snoc. unfold cancelled_ok. rewrite in_app_iff. cbn [In].
    assert (G : forall s, cancelled_ok (In GeInterrupt ges) s -> e <> GeInterrupt ->
                c_cancelled s = true <-> (In GeInterrupt ges \/ e = GeInterrupt \/ False) \/ In GFinish (c_hist s))
      by (unfold cancelled_ok; tauto).
    destruct e; cbn [g_step].
    + apply G; [|discriminate]. destruct (c_timer _); [now apply perform_cancelled|exact IH].
    + apply G; [|discriminate]. now apply answer_cancelled.
    + apply G; [|discriminate]. now apply answer_cancelled.
    + apply G; [|discriminate]. now apply answer_cancelled.
    + unfold cancelled_ok in IH. destruct (c_cancelled (g_run o ges)) eqn:E; [rewrite E|]; cbn; tauto.
    + apply G; [exact IH|discriminate].
Qed.

Lemma sent_few' ges : (Z.of_nat (length ges) < 1000000000) -> Z.of_nat (length (sent_seqs (c_hist (g_run o ges)))) < 10000000000.
Proof.
  intros H. pose proof (run_length o ges).
  assert (G : forall l, (length (sent_seqs l) <= length l)%nat) by (unfold sent_seqs; induction l as [|[] l IH]; cbn; lia).
  specialize (G (c_hist (g_run o ges))). lia.
Qed.
Lemma existsb_in k l : existsb (N.eqb k) l = true <-> In k l.
Proof.
  rewrite existsb_exists. split; [intros (x & I & E); now apply N.eqb_eq in E as ->|]. intros I. exists k. split; [exact I|apply N.eqb_refl].
Qed.
Lemma pending_iff ges k : (Z.of_nat (length ges) < 1000000000) ->
  existsb (N.eqb k) (c_pending (g_run o ges)) = true <->
  In k (sent_seqs (c_hist (g_run o ges))) /\ ~ In k (settled_seqs (c_hist (g_run o ges))).
Proof.
  intros L. apply sent_few' in L. pose proof (ci_perm _ _ (ci_run o Hopt ges)) as P.
  pose proof (sent_nodup o Hopt ges ltac:(lia)) as D. rewrite existsb_in.
  pose proof (Permutation_NoDup P D) as D'. split.
  - intros I. split; [apply (Permutation_in _ (Permutation_sym P)), in_or_app; now left|].
    intros I'. apply in_split in I as (l1 & l2 & E). rewrite E, <- app_assoc in D'. cbn in D'. apply NoDup_remove_2 in D'.
    apply D'. rewrite !in_app_iff. auto.
  - intros [I I']. apply (Permutation_in _ P), in_app_or in I. tauto.
Qed.
(** the history after an answer and after a ping *)
Lemma answer_hist s k x : existsb (N.eqb k) (c_pending s) = true ->
  exists l, c_hist (c_answer k x s) = c_hist s ++ x :: l /\ outcomes l = [] /\ sent_seqs l = [].
Proof.
  intros E. unfold c_answer. rewrite E. unfold c_finish. cbn [c_nOut c_emit]. destruct (_ >=? 0); cbn [c_cancel c_emit c_hist].
  - exists []. auto.
  - exists [GFinish]. rewrite <- app_assoc. auto.
Qed.
Lemma perform_hist s : c_nSent s <> g_nPings o -> (0 < g_nPings o -> c_nSent s <= g_nPings o) -> 
  exists l, c_hist (performPing o s) = c_hist s ++ GInterest (c_nextSeq s) :: l /\ outcomes l = [] /\ sent_seqs l = [].
Proof.
  intros H1 H2. unfold performPing. destruct Hopt as [H3 _].
  replace ((g_nPings o <? 0) || (c_nSent s <? g_nPings o)) with true by (symmetry; apply orb_true_iff; rewrite !Z.ltb_lt; lia).
  cbn [negb]. cbn zeta. destruct (_ || _); [exists []; auto|]. unfold c_finish. cbn [c_nOut c_emit]. destruct (_ >=? 0); cbn [c_cancel c_emit c_hist].
  - exists []. auto.
  - exists [GFinish]. rewrite <- app_assoc. auto.
Qed.
End Client.

(** * Notes *)
Lemma sent_app' a b : sent (a ++ b) = sent a ++ sent b.
Proof. apply flat_map_app. Qed.
Lemma in_sent h t k : In (t, k) (sent h) <-> In (t, NSent k) h.
Proof.
  unfold sent. rewrite in_flat_map. split.
  - intros ([t' n] & I & J). destruct n; cbn in J; try tauto. destruct J as [[= <- <-]|[]]. exact I.
  - intros I. eexists. split; [exact I|]. now left.
Qed.
Lemma find_app {A} (f : A -> bool) l1 l2 : find f (l1 ++ l2) = match find f l1 with Some x => Some x | None => find f l2 end.
Proof. induction l1 as [|x l IH]; cbn; [reflexivity|]. now destruct (f x). Qed.
Lemma sent_at_app h h' k : In k (map snd (sent h)) -> sent_at (h ++ h') k = sent_at h k.
Proof.
  intros I. unfold sent_at. rewrite sent_app', find_app. destruct (find _ (sent h)) as [e|] eqn:E; [reflexivity|].
  apply in_map_iff in I as (e & <- & I). eapply find_none in E; [|exact I]. cbn in E. rewrite N.eqb_refl in E. discriminate.
Qed.
Definition own_outcome (h : notes) (e : Z * note) : list gobs :=
  match snd e with
  | NData k => [GData k (Z.to_N (fst e - sent_at h k))]
  | NNack k _ => [GNack k (Z.to_N (fst e - sent_at h k))]
  | NTimeout k => [GTimeout k]
  | _ => []
  end.
Lemma measured_eq h : measured h = flat_map (own_outcome h) h. Proof. reflexivity. Qed.
Lemma measured_snoc h e : (forall k, settled h k -> In k (map snd (sent h))) ->
  measured (h ++ [e]) = measured h ++ own_outcome (h ++ [e]) e.
Proof.
  intros H. rewrite !measured_eq, flat_map_app. cbn [flat_map]. rewrite app_nil_r. f_equal.
  assert (G : forall l, incl l h -> flat_map (own_outcome (h ++ [e])) l = flat_map (own_outcome h) l).
  { induction l as [|[t n] l IH]; intros I; [reflexivity|]. cbn [flat_map]. rewrite IH by (intros x Hx; apply I; now right).
    f_equal. assert (J : In (t, n) h) by (apply I; now left). unfold own_outcome. cbn [fst snd].
    destruct n; try reflexivity; rewrite sent_at_app; try reflexivity; apply H; exists t; eauto. }
  apply G. apply incl_refl.
Qed.
Lemma in_data h k : In k (data_seqs (measured h)) <-> exists t, In (t, NData k) h.
Proof.
  rewrite measured_eq. unfold data_seqs. rewrite in_flat_map. split.
  - intros (x & I & J). apply in_flat_map in I as ([t n] & I & I'). destruct n; cbn in I'; try tauto; destruct I' as [<-|[]]; cbn in J; try tauto.
    destruct J as [<-|[]]. eauto.
  - intros (t & I). eexists. split; [apply in_flat_map; eexists; split; [exact I|]; now left|]. now left.
Qed.
Lemma in_settled h k : In k (settled_seqs (measured h)) <-> settled h k.
Proof.
  unfold settled_seqs. rewrite !in_app_iff, in_data. unfold settled. split.
  - intros [(t & I)|[I|I]]; [eauto|..]; apply in_flat_map in I as (x & I & J); rewrite measured_eq in I;
      apply in_flat_map in I as ([t n] & I & I'); destruct n; cbn in I'; try tauto; destruct I' as [<-|[]]; cbn in J; try tauto;
      destruct J as [<-|[]]; eauto 6.
  - intros (t & [I|[(c & I)|I]]); [eauto|..]; right; [left|right]; apply in_flat_map.
    + eexists. split; [rewrite measured_eq; apply in_flat_map; eexists; split; [exact I|]; now left|]. now left.
    + eexists. split; [rewrite measured_eq; apply in_flat_map; eexists; split; [exact I|]; now left|]. now left.
Qed.
Lemma settled_app h h' k : settled (h ++ h') k <-> settled h k \/ settled h' k.
Proof.
  unfold settled. split.
  - intros (t & [I|[(c & I)|I]]); apply in_app_or in I as [I|I]; eauto 8.
  - intros [(t & [I|[(c & I)|I]])|(t & [I|[(c & I)|I]])]; exists t; rewrite ?in_app_iff; eauto 6.
    + right. left. exists c. rewrite in_app_iff. auto.
    + right. left. exists c. rewrite in_app_iff. auto.
Qed.
