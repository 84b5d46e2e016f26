(** The summary that ndncatchunks prints is the one of the completed transfer. *)
From Verif Require Import Base BaseFacts TlvModel PipelineBase PipelineSpec FetcherModel FixedModel AdaptiveModel Double DumpModel ChunksTextModel ChunksTextSpec
  ChunksTextProofs3 ChunksTextFixed CatMsgModel CatLinesSpec CatLines CatLinesFixed AdaptiveTold AdaptiveTimes ChunksTextProofs2 AdaptiveTheorems.
From Coq Require Import List.
Import ListNotations.
Local Open Scope Z_scope.

Definition no_summary (m : list cmsg) : Prop := forall t, ~ In (MSummary t) m.
Lemma ns_nil : no_summary [].
Proof. intros t []. Qed.
Lemma ns_app a b : no_summary a -> no_summary b -> no_summary (a ++ b).
Proof. intros Ha Hb t H. apply in_app_or in H. destruct H; [eapply Ha|eapply Hb]; eassumption. Qed.
Lemma ns_cons x l : (forall t, x <> MSummary t) -> no_summary l -> no_summary (x :: l).
Proof. intros Hx Hl t [H|H]; [eapply Hx|eapply Hl]; eassumption. Qed.
Local Ltac g := repeat match goal with
  | |- no_summary (if ?b then _ else _) => destruct b
  | |- no_summary match ?x with _ => _ end => destruct x
  | |- no_summary (_ ++ _) => apply ns_app
  | |- no_summary (_ :: _) => apply ns_cons; [discriminate|]
  | |- no_summary [] => apply ns_nil
  end.

Section Adaptive.
Context {W R : Type}.
Variable P : policy W R.
Variable C : aconfig.
Variables cwnd ssthresh : W -> f64.
Variable summary : @astate W R -> text.
Notation st := (@astate W R).
Lemma na_send seg retx (s : st) : no_summary (ma_sendInterest C seg retx s).
Proof. unfold ma_sendInterest. destruct retx; g. Qed.
Lemma na_one (s : st) : no_summary (ma_sendOne C s).
Proof. unfold ma_sendOne. destruct (a_retxq _); [destruct (b_getNext _)|]; apply na_send. Qed.
Lemma na_sched (s : st) : no_summary (ma_schedulePackets P C s).
Proof.
  unfold ma_schedulePackets. generalize (if a_nInFlight s <? 0 then emit OAssert s else s). intros s1.
  generalize (Z.to_nat (p_floor P (a_cwnd s1) - a_nInFlight s1)). intros n. revert s1.
  induction n as [|n IH]; intros s1; cbn [ma_iter]; [apply ns_nil|]. apply ns_app; [apply na_one|apply IH].
Qed.
Lemma na_timeout seg (s : st) : no_summary (ma_recordTimeout P C cwnd ssthresh seg s).
Proof. unfold ma_recordTimeout. g. Qed.
Lemma na_adapt seg d (s : st) : no_summary (ma_adaptWindow P C cwnd seg d s).
Proof. unfold ma_adaptWindow. g. Qed.

Lemma sa_data seg d (s : st) t : In (MSummary t) (ma_handleData P C cwnd summary seg d s) -> t = summary (handleData P C seg d s).
Proof.
  unfold ma_handleData, handleData. destruct (isStopping s); [intros []|]. destruct (learnFbi d s) as [s2 c].
  destruct (negb c); [intros []|]. destruct (kget seg (a_segs s2)) as [i|]; [|intros []]. cbv zeta. intros [H|H]; [discriminate|].
  apply in_app_or in H. destruct H as [H|H]; [now apply na_adapt in H|].
  match goal with H : In _ (if ?b then _ else _) |- _ => destruct b; [destruct H|] end.
  match goal with H : In _ (if ?b then _ else _) |- _ => destruct b end.
  - destruct H as [H|[]]. injection H as <-. reflexivity.
  - now apply na_sched in H.
Qed.
Lemma sa_step (s : st) e t : In (MSummary t) (ma_step P C cwnd ssthresh summary s e) -> t = summary (a_step P C s e).
Proof.
  pose proof na_sched as Hs. pose proof na_timeout as Ht.
  assert (Hn : forall seg r (s : st), no_summary (ma_handleNack P C cwnd ssthresh seg r s)).
  { intros seg r s1. unfold ma_handleNack. destruct (isStopping s1); [g|]. apply ns_cons; [discriminate|].
    destruct r; try apply ns_nil. destruct (a_crashed _); [apply ns_nil|]. apply ns_app; [apply Ht|apply Hs]. }
  assert (Hl : forall seg (s : st), no_summary (ma_handleLifetimeExpiration P C cwnd ssthresh seg s)).
  { intros seg s1. unfold ma_handleLifetimeExpiration. destruct (isStopping s1); [g|].
    destruct (a_crashed _); [g|]. apply ns_app; [apply Ht|apply Hs]. }
  unfold ma_step, a_step. destruct (a_crashed s); [intros []|]. destruct e; try (intros []; fail).
  1-3: unfold ma_fromFace, fromFace; destruct (kget seg (a_segs s)) as [i|]; [destruct (si_live i)|]; try (intros []; fail).
  - apply sa_data.
  - intros H. now apply Hn in H.
  - intros H. now apply Hl in H.
  - destruct (a_timer s); [|intros []]. unfold ma_checkRto. destruct (isStopping _); [intros []|].
    destruct (fold_left _ _ _) as [[s1 has] high]. destruct (a_crashed s1); [intros []|]. destruct has; [|intros []].
    intros H. apply in_app_or in H. destruct H as [H|H]; [now apply Ht in H|now apply Hs in H].
Qed.
Lemma sa_start t : In (MSummary t) (ma_start P C summary) -> t = summary (doRun P C (a_init P)).
Proof.
  unfold ma_start, doRun. destruct (b_allReceived _); [intros [H|[]]; now injection H as <-|intros H; now apply na_sched in H].
Qed.

Lemma a_run_snoc' es e : a_run P C (es ++ [e]) = a_step P C (a_run P C es) e.
Proof. unfold a_run. now rewrite fold_left_app. Qed.
Lemma history_app a b : exists l, a_history (a_run P C (a ++ b)) = a_history (a_run P C a) ++ l.
Proof.
  induction b as [|e b IH] using rev_ind; [exists []; now rewrite !app_nil_r|]. destruct IH as (l & IH).
  rewrite app_assoc, a_run_snoc'. destruct (grows P C (a_run P C (a ++ b)) e) as (l' & H & _). exists (l ++ rev l').
  unfold a_history in *. now rewrite H, rev_app_distr, IH, app_assoc.
Qed.
Lemma countable_prefix a b : countable (a_history (a_run P C (a ++ b))) -> countable (a_history (a_run P C a)).
Proof.
  destruct (history_app a b) as (l & ->). intros [H1 H2]. unfold countable, bytes_delivered in *. rewrite app_length in H1.
  rewrite deliveries_app, map_app, concat_app, app_length in H2. split; lia.
Qed.
Lemma summaries_in t m : In (MSummary t) m <-> In t (summaries m).
Proof.
  unfold summaries. rewrite in_flat_map. split.
  - intros H. exists (MSummary t). split; [exact H|now left].
  - intros (x & H1 & H2). destruct x; cbn in H2; try contradiction. destruct H2 as [H2|[]]. now subst.
Qed.
Lemma done_count es : length (summaries (ma_run P C cwnd ssthresh summary es)) = length (ChunksTextSpec.completions (a_history (a_run P C es))).
Proof.
  pose proof (t_summaries _ _ _ _ _ (adaptive_lines P C cwnd ssthresh summary es)) as H. apply Nat2Z.inj. rewrite H. unfold CatLinesSpec.completions, count, ChunksTextSpec.completions.
  now rewrite (filter_ext is_done (fun o => match o with ODone => true | _ => false end)) by now intros [].
Qed.
Lemma summary_at es : forall t, In (MSummary t) (ma_run P C cwnd ssthresh summary es) ->
  exists es1 es2, es = es1 ++ es2 /\ t = summary (a_run P C es1) /\ ChunksTextSpec.completions (a_history (a_run P C es1)) = [ODone] /\
    forall a b, es1 = a ++ b -> b <> [] -> ChunksTextSpec.completions (a_history (a_run P C a)) = [].
Proof.
  assert (One : forall l, (0 < length (summaries (ma_run P C cwnd ssthresh summary l)))%nat -> ChunksTextSpec.completions (a_history (a_run P C l)) = [ODone]).
  { intros l Hl. rewrite done_count in Hl. pose proof (done_once P C _ (ex_intro _ l eq_refl)) as Ho.
    destruct (completions_is (a_history (a_run P C l))) as [E|(l' & E)]; rewrite E in *; [cbn in Hl; lia|]. destruct l'; [reflexivity|cbn in Ho; lia]. }
  induction es as [|e es IH] using rev_ind; intros t H.
  - exists [], []. split; [reflexivity|]. unfold ma_run in H. cbn [ma_from] in H. rewrite app_nil_r in H. split; [now apply sa_start|]. split.
    + apply One. unfold ma_run. cbn [ma_from]. rewrite app_nil_r. apply summaries_in in H. destruct (summaries _); [destruct H|cbn; lia].
    + intros [|] [|]; try discriminate. congruence.
  - rewrite ma_run_snoc in H. apply in_app_or in H. destruct H as [H|H].
    + destruct (IH t H) as (es1 & es2 & -> & H2 & H3 & H4). exists es1, (es2 ++ [e]). rewrite app_assoc. auto.
    + exists (es ++ [e]), []. rewrite app_nil_r. split; [reflexivity|]. split; [rewrite a_run_snoc'; now apply sa_step|].
      assert (L : (length (summaries (ma_run P C cwnd ssthresh summary es)) < length (summaries (ma_run P C cwnd ssthresh summary (es ++ [e]))))%nat).
      { rewrite ma_run_snoc. unfold summaries. rewrite flat_map_app, app_length. apply summaries_in in H. unfold summaries in H.
        destruct (flat_map _ (ma_step _ _ _ _ _ _ _)); [destruct H|cbn; lia]. }
      assert (E1 : ChunksTextSpec.completions (a_history (a_run P C (es ++ [e]))) = [ODone]) by (apply One; lia). split; [exact E1|].
      assert (E0 : ChunksTextSpec.completions (a_history (a_run P C es)) = []).
      { rewrite !done_count, E1 in L. destruct (ChunksTextSpec.completions (a_history (a_run P C es))); [reflexivity|cbn in L; lia]. }
      intros a b Hab Hb. destruct (@exists_last _ b Hb) as (b' & x & ->). rewrite app_assoc in Hab. apply app_inj_tail in Hab. destruct Hab as [-> _].
      destruct (history_app a b') as (l & Hl). rewrite Hl in E0. unfold ChunksTextSpec.completions in *. rewrite filter_app in E0. now apply app_eq_nil in E0.
Qed.
End Adaptive.

Section Fixed.
Variable C : xconfig.
Variable summary : xstate -> text.
Lemma nx_fetch s : no_summary (mx_fetchNext s).
Proof. unfold mx_fetchNext. g. Qed.
Lemma nx_doRun k : forall i s, no_summary (mx_doRun C k i s).
Proof.
  induction k as [|k IH]; intros i s; cbn [mx_doRun]; [g|]. apply ns_app; [apply nx_fetch|].
  destruct (fetchNextSegment C i s) as [s' ok]. destruct ok; [apply IH|g].
Qed.
Lemma sx_advance i s t : In (MSummary t) (mx_advance summary s) -> t = summary (x_advance C i s).
Proof. unfold mx_advance, x_advance. destruct (b_allReceived (x_b s)); [intros [H|[]]; now injection H as <-|intros H; now apply nx_fetch in H]. Qed.
Lemma sx_data i seg d s t : In (MSummary t) (mx_handleData C summary seg d s) -> t = summary (x_handleData C i seg d s).
Proof.
  unfold mx_handleData, x_handleData. destruct (b_stopping (x_b s)); [intros []|]. cbv zeta. intros [H|H]; [discriminate|]. revert H.
  destruct (xc_cbThrows C d); [intros []|]. destruct (b_hasFbi _); [apply sx_advance|]. destruct (d_fbi d); [apply sx_advance| |intros []].
  destruct (x_learn n _) as [[l o] e]. destruct e; [intros []|apply sx_advance].
Qed.
Lemma sx_slot i d fe s t : In (MSummary t) (mx_slotEvent C summary i d fe s) -> t = summary (x_slotEvent C i d fe s).
Proof.
  unfold mx_slotEvent, x_slotEvent. destruct (nth_error (x_slots s) i) as [[[f seg]|]|]; try (intros []; fail).
  assert (Hf : (forall o, In o (snd (f_step (x_fconfig C) f fe)) -> o <> FoDataCb) \/ snd (f_step (x_fconfig C) f fe) = [FoGotData; FoDataCb]).
  { unfold f_step. destruct fe, (f_phase f); try (left; cbn; intros o []; fail); cbn [prepend snd fst].
    - unfold f_handleData. destruct (negb _); [left|right; reflexivity]. cbn. intros o [<-|[]]. discriminate.
    - left. unfold f_handleNack, f_congestion, f_expressInterest.
      repeat match goal with |- context [match ?x with _ => _ end] => destruct x end; cbn; intuition (subst; discriminate).
    - left. unfold f_handleTimeout, f_expressInterest.
      repeat match goal with |- context [match ?x with _ => _ end] => destruct x end; cbn; intuition (subst; discriminate).
    - left. unfold f_expressInterest.
      repeat match goal with |- context [match ?x with _ => _ end] => destruct x end; cbn; intuition (subst; discriminate).
    - left. cbn. intuition (subst; discriminate).
    - left. cbn. intuition (subst; discriminate).
    - left. cbn. intuition (subst; discriminate). }
  destruct (f_step (x_fconfig C) f fe) as [f' os]. cbn [snd] in Hf. generalize (x_setSlots (upd i (Some (f', seg)) (x_slots s)) s). intros s1.
  destruct Hf as [Hf| ->].
  - intros H. exfalso. revert s1 H. induction os as [|o os IH]; intros s1; cbn [mx_reacts]; [intros []|]. intros H. apply in_app_or in H. destruct H as [H|H].
    + destruct o; cbn [mx_react] in H; try (destruct H; fail); try (destruct (f_isRunning f); [destruct H as [H|[]]; discriminate|destruct H]).
      now apply (Hf FoDataCb (or_introl eq_refl)).
    + refine (IH _ _ H). intros o' Ho'. apply Hf. now right.
  - cbn [mx_reacts mx_react app fold_left]. rewrite app_nil_r. intros H. cbn [x_react] in *. now apply (sx_data i) in H.
Qed.
Lemma sx_step s e t : In (MSummary t) (mx_step C summary s e) -> t = summary (x_step C s e).
Proof. unfold mx_step, x_step. destruct (x_crashed s); [intros []|]. destruct e; try apply sx_slot. intros []. Qed.
Lemma mx_run_snoc es e : mx_run C summary (es ++ [e]) = mx_run C summary es ++ mx_step C summary (x_run C es) e.
Proof.
  unfold mx_run, x_run. rewrite <- app_assoc. f_equal. generalize (x_doRun C (xc_size C) 0 (x_init C)). induction es as [|x es IH]; intros s; cbn.
  - now rewrite app_nil_r.
  - now rewrite IH, app_assoc.
Qed.
Lemma x_run_snoc' es e : x_run C (es ++ [e]) = x_step C (x_run C es) e.
Proof. unfold x_run. now rewrite fold_left_app. Qed.
Lemma summary_at_fixed es : forall t, In (MSummary t) (mx_run C summary es) ->
  exists es1 e es2, es = es1 ++ e :: es2 /\ t = summary (x_run C (es1 ++ [e])) /\
    CatLinesSpec.completions (x_history (x_run C es1)) < CatLinesSpec.completions (x_history (x_run C (es1 ++ [e]))).
Proof.
  induction es as [|e es IH] using rev_ind; intros t H.
  - unfold mx_run in H. cbn [mx_from] in H. rewrite app_nil_r in H. now apply nx_doRun in H.
  - rewrite mx_run_snoc in H. apply in_app_or in H. destruct H as [H|H].
    + destruct (IH t H) as (es1 & x & es2 & -> & H2 & H3). exists es1, x, (es2 ++ [e]). rewrite <- app_assoc. auto.
    + exists es, e, []. split; [reflexivity|]. split; [rewrite x_run_snoc'; now apply sx_step|].
      pose proof (t_summaries _ _ _ _ _ (fixed_lines C summary es)) as H1. pose proof (t_summaries _ _ _ _ _ (fixed_lines C summary (es ++ [e]))) as H2.
      rewrite <- H1, <- H2, mx_run_snoc. unfold summaries at 2. rewrite flat_map_app, app_length. fold (summaries (mx_run C summary es)).
      apply summaries_in in H. unfold summaries in H. destruct (flat_map _ (mx_step _ _ _ _)); [destruct H|cbn; lia].
Qed.
End Fixed.

Lemma adaptive_summary_right {W E} (P : policy W E) (C : aconfig) (cwnd ssthresh : W -> f64) rtts el (es : list aevent) t :
  passed es < ns_max -> countable (a_history (a_run P C es)) ->
  In (MSummary t) (ma_run P C cwnd ssthresh (adaptive_text el rtts) es) ->
  exists es1 es2, es = es1 ++ es2 /\ ChunksTextSpec.completions (a_history (a_run P C es1)) = [ODone] /\
    (forall a b, es1 = a ++ b -> b <> [] -> ChunksTextSpec.completions (a_history (a_run P C a)) = []) /\
    full_report el (passed es1) (rtts (a_rtt (a_run P C es1))) (a_history (a_run P C es1)) t.
Proof.
  intros Hp Hc H. destruct (summary_at P C cwnd ssthresh _ es t H) as (es1 & es2 & -> & -> & H1 & H2).
  exists es1, es2. split; [reflexivity|]. split; [exact H1|]. split; [exact H2|]. rewrite <- (done_now P C es1 H1 H2). rewrite passed_app in Hp.
  assert (0 <= passed es2) by (clear; unfold passed; induction es2 as [|[] es2 IH]; cbn [fold_right]; lia). apply text_ok; [lia|exact (countable_prefix P C es1 es2 Hc)].
Qed.
Lemma fixed_summary_right (C : xconfig) (es : list xevent) el ns t :
  0 <= ns < ns_max -> (forall es1 es2, es = es1 ++ es2 -> countable (x_history (x_run C es1))) ->
  In (MSummary t) (mx_run C (fun s => base_summary el ns (x_b s)) es) ->
  exists es1 e es2, es = es1 ++ e :: es2 /\
    CatLinesSpec.completions (x_history (x_run C es1)) < CatLinesSpec.completions (x_history (x_run C (es1 ++ [e]))) /\
    transfer_report el ns (x_history (x_run C (es1 ++ [e]))) t.
Proof.
  intros Hn Hc H. destruct (summary_at_fixed C _ es t H) as (es1 & e & es2 & -> & -> & H1). exists es1, e, es2. split; [reflexivity|]. split; [exact H1|].
  apply fixed_text_ok; [exact Hn|]. apply (Hc (es1 ++ [e]) es2). now rewrite <- app_assoc.
Qed.
