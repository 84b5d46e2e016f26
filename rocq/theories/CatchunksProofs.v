From Verif Require Import Base BaseFacts PipelineBase PipelineSpec ConsumerModel ConsumerSpec ConsumerProofs CatchunksModel CatchunksSpec.

Lemma firstn_of_nth {A} (cs chunks : list A) :
  (forall k c, nth_error cs k = Some c -> nth_error chunks k = Some c) ->
  cs = firstn (length cs) chunks.
Proof.
  revert chunks. induction cs as [|c cs IH]; intros chunks H; [reflexivity|].
  destruct chunks as [|c' chunks]; [specialize (H O c eq_refl); discriminate|].
  cbn. pose proof (H O c eq_refl) as H0. injection H0 as ->. f_equal. apply IH.
  intros k x Hk. apply (H (S k) x Hk).
Qed.

Section Genuine.
Variable chunks : list (list N).
Variable segs : list (N * data).
Hypothesis Hnd : NoDup (map fst segs).
Hypothesis Hgen : forall k d, In (k, d) segs -> genuine chunks k d.

Lemma gapfree_chunks out : gapfree segs out ->
  exists cs, out = concat cs /\ cs = firstn (length cs) chunks /\
             (forall d, ~ In (N.of_nat (length cs), d) segs).
Proof.
  intros (cs & E & H1 & H2). exists cs. split; [exact E|]. split; [|exact H2].
  apply firstn_of_nth. intros k c Hk. destruct (H1 k c Hk) as (d & Hd & <-).
  destruct (Hgen _ _ Hd) as [Hn _]. now rewrite Nat2N.id in Hn.
Qed.

Lemma gapfree_prefix out : gapfree segs out -> is_prefix out (concat chunks).
Proof.
  intros H. destruct (gapfree_chunks out H) as (cs & -> & E & _).
  exists (concat (skipn (length cs) chunks)).
  rewrite <- (firstn_skipn (length cs) chunks) at 1. rewrite concat_app. now rewrite <- E.
Qed.

Lemma gapfree_complete out : gapfree segs out -> (length chunks <= length segs)%nat -> out = concat chunks.
Proof.
  intros H Hlen. destruct (gapfree_chunks out H) as (cs & -> & E & Hmiss).
  destruct (Nat.leb_spec (length chunks) (length cs)) as [Hle|Hlt].
  - rewrite E. now rewrite firstn_all2.
  - exfalso.
    assert (Hincl : incl (map fst segs) (map N.of_nat (seq 0 (length chunks)))).
    { intros k Hk. apply in_map_iff in Hk. destruct Hk as ([k' d] & <- & Hin). cbn.
      destruct (Hgen _ _ Hin) as [Hn _]. apply in_map_iff. exists (N.to_nat k'). split; [lia|].
      apply in_seq. split; [lia|]. cbn. apply nth_error_Some. congruence. }
    assert (Hback : incl (map N.of_nat (seq 0 (length chunks))) (map fst segs)).
    { apply NoDup_length_incl; auto. rewrite !map_length, seq_length. exact Hlen. }
    assert (Hin : In (N.of_nat (length cs)) (map fst segs)).
    { apply Hback. apply in_map. apply in_seq. lia. }
    apply in_map_iff in Hin. destruct Hin as ([k d] & Hk & Hin). cbn in Hk. subst k.
    exact (Hmiss d Hin).
Qed.
End Genuine.

(** any history whose deliveries are distinct and come from genuine Data *)
Section History.
Variable h : list pobs.
Variable chunks : list (list N).
Hypothesis Hnd : NoDup (map fst (deliveries h)).
Hypothesis Hgen : forall k d, In (k, d) (deliveries h) -> genuine chunks k d.

Lemma stdout_gapfree : gapfree (deliveries h) (catchunks_stdout h).
Proof.
  apply consumer_in_order_lemma; [exact Hnd|]. intros k d H. apply Hgen in H.
  destruct H as (_ & H & _). exact H.
Qed.

Lemma stdout_prefix : is_prefix (catchunks_stdout h) (concat chunks).
Proof. eapply gapfree_prefix; eauto using stdout_gapfree. Qed.

Lemma stdout_complete :
  (length chunks <= length (deliveries h))%nat -> catchunks_stdout h = concat chunks.
Proof. eapply gapfree_complete; eauto using stdout_gapfree. Qed.
End History.

Lemma genuine_known chunks h n :
  genuine_history chunks h -> known_last h = Some n -> n = N.of_nat (length chunks - 1) /\ chunks <> [].
Proof.
  unfold genuine_history. induction h as [|o h IH]; cbn; [discriminate|]. intros Hg.
  assert (Hg' : forall seg d, In (OGotData seg d) h -> genuine chunks seg d) by auto.
  destruct o; auto. specialize (Hg seg d (or_introl eq_refl)).
  destruct Hg as (H1 & _ & [H2|H2]); rewrite H2; [auto|].
  intros [= <-]. split; [reflexivity|]. intros ->. destruct (N.to_nat seg); discriminate.
Qed.

Lemma genuine_forall chunks h :
  Forall (fun o => match o with OGotData seg d => genuine chunks seg d | _ => True end) h ->
  genuine_history chunks h.
Proof. intros H seg d Hi. exact (proj1 (Forall_forall _ _) H _ Hi). Qed.
