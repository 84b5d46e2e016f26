(** The counters of the fixed-size pipeline, for the summary that it prints. *)
From Verif Require Import Base BaseFacts PipelineBase PipelineSpec FetcherModel FixedModel TlvModel DumpModel ChunksTextModel ChunksTextSpec ChunksTextProofs3 AdaptiveTheorems.
From Coq Require Import List.
Import ListNotations.

Definition tally (s : xstate) : Prop :=
  b_nReceived (x_b s) = Z.of_nat (length (deliveries (x_tr s))) /\ b_recvSize (x_b s) = Z.of_nat (bytes_delivered (x_tr s)).
(** no delivery *)
Definition still (s s' : xstate) : Prop :=
  b_nReceived (x_b s') = b_nReceived (x_b s) /\ b_recvSize (x_b s') = b_recvSize (x_b s) /\ deliveries (x_tr s') = deliveries (x_tr s).
Lemma t_still s s' : still s s' -> tally s -> tally s'.
Proof. unfold tally, still, bytes_delivered. intros (-> & -> & ->). auto. Qed.
Lemma still_trans a b c : still a b -> still b c -> still a c.
Proof. unfold still. intros (H1 & H2 & H3) (H4 & H5 & H6). repeat split; congruence. Qed.
Ltac easy_still := repeat split; reflexivity.

Lemma no_deliveries l : Forall (fun o => exists k, o = OAbandon k) l -> deliveries l = [].
Proof. induction 1 as [|o l [k ->] _ IH]; [reflexivity|exact IH]. Qed.
Lemma abandoned_ok x : Forall (fun o => exists k, o = OAbandon k) (abandoned x).
Proof. destruct x as [[f k]|]; cbn; [destruct (f_isRunning f)|]; repeat constructor; eauto. Qed.
Lemma flat_ok {A} (f : A -> list pobs) l : (forall x, Forall (fun o => exists k, o = OAbandon k) (f x)) -> Forall (fun o => exists k, o = OAbandon k) (flat_map f l).
Proof. intros H. induction l; cbn; [constructor|]. apply Forall_app. auto. Qed.
Lemma s_prepend l (s s' : xstate) : x_tr s' = rev l ++ x_tr s -> Forall (fun o => exists k, o = OAbandon k) l ->
  b_nReceived (x_b s') = b_nReceived (x_b s) -> b_recvSize (x_b s') = b_recvSize (x_b s) -> still s s'.
Proof. intros H1 H2 H3 H4. repeat split; auto. rewrite H1, deliveries_app, (no_deliveries (rev l)); [reflexivity|]. now apply Forall_rev. Qed.

Lemma s_cancel s : still s (x_cancel s).
Proof.
  unfold x_cancel. destruct (b_stopping _); [easy_still|]. eapply s_prepend; try reflexivity. apply flat_ok, abandoned_ok.
Qed.
Lemma s_onFailure r s : still s (x_onFailure r s).
Proof. unfold x_onFailure. destruct (b_stopping _); [easy_still|]. eapply still_trans; [apply s_cancel|easy_still]. Qed.
Lemma s_fetch C i s : still s (fst (fetchNextSegment C i s)).
Proof.
  unfold fetchNextSegment. destruct (b_stopping _); [easy_still|]. destruct (x_hasFailure s); [apply s_onFailure|].
  cbn [b_getNext]. destruct (_ && _); [easy_still|]. cbv zeta. cbn [fst].
  match goal with |- context [nth_error ?l i] => destruct (nth_error l i) as [[[f k]|]|] end; try easy_still.
  destruct (f_isRunning f); easy_still.
Qed.
Lemma s_doRun C k : forall i s, still s (x_doRun C k i s).
Proof.
  induction k as [|k IH]; intros i s; cbn [x_doRun]; [easy_still|]. pose proof (s_fetch C i s) as H. destruct (fetchNextSegment C i s) as [s1 ok].
  cbn [fst] in H. destruct ok; [|exact H]. eapply still_trans; [exact H|apply IH].
Qed.
Lemma s_advance C i s : still s (x_advance C i s).
Proof. unfold x_advance. destruct (b_allReceived _); [easy_still|apply s_fetch]. Qed.
Lemma learn_ok n l : Forall (fun o => exists k, o = OAbandon k) (snd (fst (x_learn n l))).
Proof.
  induction l as [|[[f k]|] l IH]; cbn [x_learn]; [constructor| |].
  - destruct (n <? k)%N; [|destruct (f_hasError f); [constructor|]].
    all: destruct (x_learn n l) as [[r o] e]; cbn [fst snd] in *; auto. apply Forall_app. split; [apply (abandoned_ok (Some (f, k)))|exact IH].
  - destruct (x_learn n l) as [[r o] e]. exact IH.
Qed.
Lemma t_handleData C i seg d s : tally s -> tally (x_handleData C i seg d s).
Proof.
  intros H. unfold x_handleData. destruct (b_stopping _); [exact H|]. cbv zeta.
  set (s1 := x_emit (ODeliver seg d) (x_setB (b_received d (x_b s)) s)).
  assert (H1 : tally s1).
  { destruct H as [A B]. unfold tally, s1, bytes_delivered in *. cbn [x_b x_emit x_setB x_tr b_nReceived b_recvSize b_received].
    change (ODeliver seg d :: x_tr s) with ([ODeliver seg d] ++ x_tr s). rewrite deliveries_app, map_app, concat_app, !app_length, A, B. cbn. rewrite app_nil_r. split; lia. }
  destruct (xc_cbThrows C d); [eapply t_still; [|exact H1]; easy_still|].
  destruct (b_hasFbi _); [eapply t_still; [apply s_advance|exact H1]|].
  destruct (d_fbi d) as [|n|]; [eapply t_still; [apply s_advance|exact H1]| |eapply t_still; [|exact H1]; easy_still].
  pose proof (learn_ok n (x_slots s1)) as HL. destruct (x_learn n (x_slots s1)) as [[l o] e]. cbn [fst snd] in HL.
  match goal with |- context [XState ?a ?b ?c ?d ?e] => assert (H2 : tally (XState a b c d e)) end.
  { eapply t_still; [|exact H1]. eapply s_prepend; try reflexivity. exact HL. }
  destruct e; [eapply t_still; [apply s_onFailure|exact H2]|eapply t_still; [apply s_advance|exact H2]].
Qed.
Lemma s_handleFail seg s : still s (x_handleFail seg s).
Proof.
  unfold x_handleFail. destruct (b_stopping _); [easy_still|]. destruct (_ && _); [apply s_onFailure|]. destruct (b_hasFbi _); [easy_still|]. cbv zeta.
  match goal with |- context [XState ?a ?b ?c ?d ?e] => assert (H : still s (XState a b c d e)) end.
  { eapply s_prepend; try reflexivity. apply flat_ok. intros [[f k]|]; cbn; [|constructor]. destruct (_ <? _)%N; [apply (abandoned_ok (Some (f, k)))|constructor]. }
  destruct (existsb _ _); [eapply still_trans; [exact H|easy_still]|eapply still_trans; [exact H|apply s_onFailure]].
Qed.
Lemma t_react C i seg d s o : tally s -> tally (x_react C i seg d s o).
Proof.
  intros H. destruct o; cbn [x_react]; try (eapply t_still; [|exact H]; easy_still).
  - now apply t_handleData.
  - eapply t_still; [apply s_handleFail|exact H].
Qed.
Lemma t_slot C i d e s : tally s -> tally (x_slotEvent C i d e s).
Proof.
  intros H. unfold x_slotEvent. destruct (nth_error (x_slots s) i) as [[[f seg]|]|]; try exact H. destruct (f_step _ f e) as [f' os].
  assert (H1 : tally (x_setSlots (upd i (Some (f', seg)) (x_slots s)) s)) by (eapply t_still; [|exact H]; easy_still).
  revert H1. generalize (x_setSlots (upd i (Some (f', seg)) (x_slots s)) s). induction os as [|o os IH]; intros s1 H1; cbn [fold_left]; [exact H1|].
  apply IH. now apply t_react.
Qed.
Lemma t_step C s e : tally s -> tally (x_step C s e).
Proof.
  intros H. unfold x_step. destruct (x_crashed s); [exact H|]. destruct e; try (now apply t_slot).
  eapply t_still; [apply s_cancel|]. eapply t_still; [|exact H]. easy_still.
Qed.
Lemma t_run C es : tally (x_run C es).
Proof.
  unfold x_run. assert (H0 : tally (x_doRun C (xc_size C) 0 (x_init C))) by (eapply t_still; [apply s_doRun|split; reflexivity]).
  revert H0. generalize (x_doRun C (xc_size C) 0 (x_init C)). induction es as [|e es IH]; intros s H; cbn [fold_left]; [exact H|].
  apply IH. now apply t_step.
Qed.
Lemma rev_deliveries h : deliveries (rev h) = rev (deliveries h).
Proof. induction h as [|o h IH]; [reflexivity|]. cbn [rev]. rewrite deliveries_app, IH. destruct o; cbn; rewrite ?app_nil_r; reflexivity. Qed.
Lemma concat_rev_length {A} (l : list (list A)) : length (concat (rev l)) = length (concat l).
Proof. induction l as [|x l IH]; [reflexivity|]. cbn [rev concat]. rewrite concat_app, !app_length, IH. cbn [concat]. rewrite app_nil_r. lia. Qed.
Lemma rev_bytes h : bytes_delivered (rev h) = bytes_delivered h.
Proof. unfold bytes_delivered. rewrite rev_deliveries, map_rev. apply concat_rev_length. Qed.

Lemma fixed_text_ok C es el ns : (0 <= ns < ns_max)%Z -> countable (x_history (x_run C es)) ->
  transfer_report el ns (x_history (x_run C es)) (base_summary el ns (x_b (x_run C es))).
Proof.
  intros Hn [HL HB]. destruct (t_run C es) as [H1 H2]. unfold x_history in *. set (t := x_tr (x_run C es)) in *.
  pose proof (deliveries_le (rev t)). apply base_ok; auto.
  - now rewrite H1, rev_deliveries, rev_length.
  - now rewrite H2, rev_bytes.
  - lia.
Qed.
