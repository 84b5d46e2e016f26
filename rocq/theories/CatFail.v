(** The reason of a failure, from what a step of the pipeline adds to its history. *)
From Verif Require Import Base BaseFacts PipelineBase PipelineSpec FetcherModel FixedModel AdaptiveModel AdaptiveProofs.
From Verif Require Import ConsumerModel CatchunksModel ExitModel ExitProofs CatMsgModel.

(** ** a trace is extended by observations of a kind *)
Section Ext.
Variable p : pobs -> bool.
Definition ext (t t' : list pobs) : Prop := exists l, t' = l ++ t /\ forallb p l = true.
Lemma ext_refl t : ext t t.
Proof. exists []. auto. Qed.
Lemma ext_trans a b c : ext a b -> ext b c -> ext a c.
Proof. intros (l1 & -> & H1) (l2 & -> & H2). exists (l2 ++ l1). rewrite <- app_assoc, forallb_app, H1, H2. auto. Qed.
Lemma ext_cons o t : p o = true -> ext t (o :: t).
Proof. intros H. exists [o]. cbn. rewrite H. auto. Qed.
Lemma ext_forall l t : Forall (fun o => p o = true) l -> ext t (l ++ t).
Proof. intros H. exists l. split; [reflexivity|]. apply forallb_forall. now apply Forall_forall. Qed.
End Ext.
Lemma ext_mono (p q : pobs -> bool) t t' : (forall o, p o = true -> q o = true) -> ext p t t' -> ext q t t'.
Proof.
  intros H (l & -> & Hl). exists l. split; [reflexivity|]. rewrite forallb_forall in *. intros o Ho. apply H, Hl, Ho.
Qed.

Lemma added_app l t : added t (l ++ t) = rev l.
Proof.
  unfold added. rewrite app_length. replace (length l + length t - length t)%nat with (length l + 0)%nat by lia.
  rewrite firstn_app_2. cbn. now rewrite app_nil_r.
Qed.

(** neither thrown nor delivered; moreover, no failure is reported *)
Definition meek (o : pobs) : bool := match o with OThrow | ODeliver _ _ => false | _ => true end.
Definition mild (o : pobs) : bool := match o with OThrow | ODeliver _ _ | OFail _ => false | _ => true end.
Lemma mild_meek o : mild o = true -> meek o = true.
Proof. destruct o; cbn; congruence. Qed.

Section Chunk.
Variable cb : data -> bool.
(** what the callback accepts may be delivered *)
Definition safe (o : pobs) : bool := match o with OThrow => false | ODeliver _ d => negb (cb d) | _ => true end.
Definition tame (o : pobs) : bool := match o with OThrow | OFail _ => false | ODeliver _ d => negb (cb d) | _ => true end.
Lemma meek_safe o : meek o = true -> safe o = true.
Proof. destruct o; cbn; congruence. Qed.
Lemma mild_tame o : mild o = true -> tame o = true.
Proof. destruct o; cbn; congruence. Qed.
Lemma tame_safe o : tame o = true -> safe o = true.
Proof. destruct o; cbn; congruence. Qed.

(** what a step adds, latest first *)
Inductive chunk (got : option (N * data)) : list pobs -> Prop :=
| Ch_safe l : forallb safe l = true -> chunk got l
| Ch_nack seg d l : cb d = true -> In (OGotData seg d) l -> forallb mild l = true -> chunk got (OThrow :: ODeliver seg d :: l)
| Ch_final seg d l : d_fbi d = FbiInvalid -> got = Some (seg, d) -> In (OGotData seg d) l -> forallb tame l = true ->
    chunk got (OThrow :: l).

Lemma find_none_all {A} (f : A -> bool) l : (forall x, In x l -> f x = false) -> find f l = None.
Proof.
  induction l as [|x l IH]; intros H; cbn; [reflexivity|]. rewrite (H x (or_introl eq_refl)). apply IH. intros y Hy. apply H. now right.
Qed.
Lemma find_app_none {A} (f : A -> bool) l1 l2 : find f l1 = None -> find f (l1 ++ l2) = find f l2.
Proof. induction l1 as [|x l1 IH]; cbn; [reflexivity|]. destruct (f x); [discriminate|exact IH]. Qed.

Lemma thrown_nack got seg d l : cb d = true -> forallb mild l = true ->
  thrown cb got (rev (OThrow :: ODeliver seg d :: l)) = Some (FlAppNack seg d).
Proof.
  intros Hd Hl. cbn [rev]. rewrite <- !app_assoc. cbn [app].
  assert (Hx : forall x, In x (rev l) -> mild x = true).
  { intros x Hx. apply in_rev in Hx. rewrite forallb_forall in Hl. now apply Hl. }
  unfold thrown. rewrite find_app_none by (apply find_none_all; intros x Hi; specialize (Hx x Hi); destruct x; auto; discriminate).
  cbn [find]. rewrite find_app_none by (apply find_none_all; intros x Hi; specialize (Hx x Hi); destruct x; auto; discriminate).
  cbn [find]. now rewrite Hd.
Qed.
Lemma thrown_final got seg d l : got = Some (seg, d) -> forallb tame l = true ->
  thrown cb got (rev (OThrow :: l)) = Some (FlFinalBlock seg d).
Proof.
  intros -> Hl. cbn [rev].
  assert (Hx : forall x, In x (rev l) -> tame x = true).
  { intros x Hx. apply in_rev in Hx. rewrite forallb_forall in Hl. now apply Hl. }
  unfold thrown. rewrite find_app_none by (apply find_none_all; intros x Hi; specialize (Hx x Hi); destruct x; auto; discriminate).
  cbn [find]. rewrite find_app_none; [reflexivity|]. apply find_none_all. intros x Hi. specialize (Hx x Hi).
  destruct x; auto. cbn in Hx. now destruct (cb d0).
Qed.
Lemma thrown_safe got l : forallb safe l = true ->
  match thrown cb got (rev l) with
  | Some f => exists r, f = FlReason r /\ In (OFail r) l
  | None => forall r, ~ In (OFail r) l
  end.
Proof.
  intros Hl. unfold thrown. destruct (find _ _) as [o|] eqn:E.
  - apply find_some in E. destruct E as [Hi Ho]. apply in_rev in Hi. rewrite forallb_forall in Hl. specialize (Hl o Hi).
    destruct o; try discriminate. eauto.
  - intros r Hi. apply in_rev in Hi. pose proof (find_none _ _ E _ Hi). discriminate.
Qed.

(** what the failure tells about the step *)
Lemma chunk_thrown got l : chunk got l ->
  match thrown cb got (rev l) with
  | Some (FlReason r) => In (OFail r) l /\ ~ In OThrow l /\ (forall k d, In (ODeliver k d) l -> cb d = false)
  | Some (FlAppNack seg d) => In (OGotData seg d) l /\ In (ODeliver seg d) l /\ cb d = true
  | Some (FlFinalBlock seg d) => In (OGotData seg d) l /\ d_fbi d = FbiInvalid /\ (forall k d, In (ODeliver k d) l -> cb d = false)
  | Some _ => False
  | None => forallb safe l = true /\ forall r, ~ In (OFail r) l
  end.
Proof.
  assert (HS : forall l, forallb safe l = true -> ~ In OThrow l /\ (forall k d, In (ODeliver k d) l -> cb d = false)).
  { intros l0 H. rewrite forallb_forall in H. split; [intros Hi; specialize (H _ Hi); discriminate|].
    intros k d Hi. specialize (H _ Hi). cbn in H. now destruct (cb d). }
  intros [l0 H|seg d l0 Hd Hg H|seg d l0 Hf Hg Hi H].
  - pose proof (thrown_safe got l0 H) as HT. destruct (thrown cb got (rev l0)) as [f|]; [|auto].
    destruct HT as (r & -> & Hr). split; [exact Hr|now apply HS].
  - rewrite thrown_nack by assumption. cbn. auto.
  - rewrite (thrown_final got seg d) by assumption. split; [now right|]. split; [exact Hf|].
    intros k d0 [Hx|Hx]; [discriminate|]. rewrite forallb_forall in H. specialize (H _ Hx). cbn in H. now destruct (cb d0).
Qed.
End Chunk.

(** ** whole runs of a pipeline *)
Section Run.
Variables (S E : Type) (tr : S -> list pobs) (step : S -> E -> S) (fail : S -> E -> option failure).
Variable inv : S -> Prop.
Variable dead : S -> bool.
Notation cb := d_appnack.

Definition clean (l : list pobs) : Prop := forallb (safe cb) l = true /\ forall rs, ~ In (OFail rs) l.
Lemma clean_app a b : clean a -> clean b -> clean (a ++ b).
Proof.
  intros [A1 A2] [B1 B2]. split; [now rewrite forallb_app, A1, B1|]. intros rs Hi. apply in_app_or in Hi. destruct Hi as [Hi|Hi]; [now apply (A2 rs)|now apply (B2 rs)].
Qed.
(** what the failure of a step tells about what it adds *)
Definition outcome (l : list pobs) (f : option failure) : Prop :=
  match f with
  | None => clean l
  | Some (FlAppNack seg d) => In (ODeliver seg d) l /\ cb d = true
  | Some _ => (In OThrow l \/ exists rs, In (OFail rs) l) /\ forall k d, In (ODeliver k d) l -> cb d = false
  end.
Hypothesis Hinv : forall s e, inv s -> inv (step s e).
Hypothesis Hstep : forall s e, inv s ->
  exists l, tr (step s e) = l ++ tr s /\ outcome l (fail s e) /\ (In OThrow l -> dead (step s e) = true).
Hypothesis Hdead : forall s e, dead s = true -> step s e = s.

Fixpoint fail_from (s : S) (es : list E) : option failure :=
  match es with [] => None | e :: es => match fail s e with Some f => Some f | None => fail_from (step s e) es end end.

Lemma run_ext es : forall s, inv s -> exists l, tr (fold_left step es s) = l ++ tr s.
Proof.
  induction es as [|e es IH]; intros s H; cbn [fold_left]; [exists []; reflexivity|].
  destruct (Hstep s e H) as (l & El & _). destruct (IH (step s e) (Hinv s e H)) as (l2 & E2). exists (l2 ++ l). rewrite <- app_assoc. congruence.
Qed.
Lemma run_dead es s : dead s = true -> fold_left step es s = s.
Proof. intros H. induction es as [|e es IH]; cbn [fold_left]; [reflexivity|]. now rewrite Hdead. Qed.
Lemma run_fail es : forall s, inv s ->
  match fail_from s es with
  | None => exists l, tr (fold_left step es s) = l ++ tr s /\ clean l
  | Some f => exists es1 e es2 l0 l1 l2,
      es = es1 ++ e :: es2 /\ clean l0 /\
      (let s1 := fold_left step es1 s in
       inv s1 /\ tr s1 = l0 ++ tr s /\ fail s1 e = Some f /\ tr (step s1 e) = l1 ++ tr s1 /\ outcome l1 (Some f) /\
       tr (fold_left step es s) = l2 ++ l1 ++ tr s1 /\ (In OThrow l1 -> l2 = []))
  end.
Proof.
  induction es as [|e es IH]; intros s H; cbn [fail_from fold_left]; [exists []; repeat split; auto|].
  destruct (Hstep s e H) as (l & El & Ho & Hd). destruct (fail s e) as [f|] eqn:Ef.
  - destruct (run_ext es (step s e) (Hinv s e H)) as (l2 & E2).
    exists [], e, es, [], l, l2. split; [reflexivity|]. split; [split; auto|]. cbn [fold_left]. cbv zeta.
    repeat (split; [auto; congruence|]). intros Hi. rewrite (run_dead es _ (Hd Hi)) in E2.
    apply (f_equal (@length _)) in E2. rewrite app_length in E2. destruct l2; [reflexivity|cbn in E2; lia].
  - specialize (IH (step s e) (Hinv s e H)). destruct (fail_from (step s e) es) as [f|].
    + destruct IH as (es1 & e1 & es2 & l0 & l1 & l2 & E1 & Hc & IH). cbv zeta in IH.
      destruct IH as (I1 & I2 & I3 & I4 & I5 & I6 & I7).
      exists (e :: es1), e1, es2, (l0 ++ l), l1, l2. split; [cbn; congruence|]. split; [now apply clean_app|]. cbn [fold_left]. cbv zeta.
      split; [exact I1|]. split; [rewrite I2, El; apply app_assoc|]. repeat (split; [auto; congruence|]). exact I7.
    + destruct IH as (l2 & E2 & Hc). exists (l2 ++ l). rewrite <- app_assoc. split; [congruence|now apply clean_app].
Qed.

(** the exit status *)
Variable s0 : S.
Hypothesis H0 : inv s0.
Hypothesis Hclean0 : clean (tr s0).
Hypothesis Hstop : forall es h1 rs h2, rev (tr (fold_left step es s0)) = h1 ++ OFail rs :: h2 ->
  forall x, In x h2 -> is_action x = false.

Lemma status_fail es working :
  pipeline_status working (rev (tr (fold_left step es s0))) =
  match fail_from s0 es with
  | None => if working then None else Some 0
  | Some (FlAppNack _ _) => Some 3
  | Some _ => Some 1
  end.
Proof.
  pose proof (run_fail es s0 H0) as HR. set (h := rev (tr (fold_left step es s0))).
  assert (Hin : forall o, In o h <-> In o (tr (fold_left step es s0))) by (intros o; symmetry; apply in_rev).
  assert (Hgood : (forall k d, In (ODeliver k d) h -> d_appnack d = false) -> co_exit (catchunks_consumer h) = None).
  { intros Hg. destruct (consumer_cases h) as [[(k & d & Hk & Hd) _]|[_ Hc]]; [|exact Hc]. rewrite (Hg k d Hk) in Hd. discriminate. }
  destruct (fail_from s0 es) as [f|].
  - destruct HR as (es1 & e & es2 & l0 & l1 & l2 & _ & Hc & Hx). cbv zeta in Hx. destruct Hx as (_ & I2 & _ & _ & I5 & I6 & I7).
    assert (Hc1 : clean (l0 ++ tr s0)) by now apply clean_app. rewrite <- I2 in Hc1.
    assert (Hone : (exists seg d, f = FlAppNack seg d) \/
                   ((In OThrow l1 \/ exists rs, In (OFail rs) l1) /\ forall k d, In (ODeliver k d) l1 -> cb d = false)).
    { destruct f; cbn [outcome] in I5; eauto. }
    destruct Hone as [(seg & d & ->)|[Hbad Hdel]].
    { cbn [outcome] in I5. destruct I5 as [Hd Ha]. unfold pipeline_status.
      destruct (consumer_cases h) as [[_ ->]|[Hg _]]; [reflexivity|]. rewrite (Hg seg d) in Ha; [discriminate|].
      apply Hin. rewrite I6. apply in_or_app. right. apply in_or_app. now left. }
    assert (Hf : match f with FlAppNack _ _ => Some 3 | _ => Some 1 end = Some 1).
    { destruct f; try reflexivity. exfalso. cbn [outcome] in I5. destruct I5 as [Hd Ha]. rewrite (Hdel _ _ Hd) in Ha. discriminate. }
    rewrite Hf. unfold pipeline_status. rewrite Hgood.
    + destruct (existsb is_throw h || existsb is_failure h) eqn:Eb; [reflexivity|]. exfalso. apply orb_false_elim in Eb. destruct Eb as [B1 B2].
      destruct Hbad as [Hb|(rs & Hb)].
      * apply not_true_iff_false in B1. apply B1, ex_throw, Hin. rewrite I6. apply in_or_app. right. apply in_or_app. now left.
      * apply not_true_iff_false in B2. apply B2, ex_failure. exists rs. apply Hin. rewrite I6. apply in_or_app. right. apply in_or_app. now left.
    + intros k d Hi. apply Hin in Hi. rewrite I6 in Hi. apply in_app_or in Hi. destruct Hi as [Hi|Hi].
      * destruct Hbad as [Hb|(rs & Hb)]; [rewrite (I7 Hb) in Hi; destruct Hi|]. exfalso.
        apply in_split in Hb. destruct Hb as (a & b & Eb).
        assert (Eh : h = rev (b ++ tr (fold_left step es1 s0)) ++ OFail rs :: (rev a ++ rev l2)).
        { unfold h. rewrite I6, Eb. repeat (rewrite rev_app_distr || rewrite <- app_assoc || cbn [rev app]). reflexivity. }
        pose proof (Hstop es _ _ _ Eh (ODeliver k d)) as Hs. cbn in Hs. discriminate Hs. apply in_or_app. right. now apply -> in_rev.
      * apply in_app_or in Hi. destruct Hi as [Hi|Hi]; [now apply (Hdel k)|].
        destruct Hc1 as [Hc1 _]. rewrite forallb_forall in Hc1. specialize (Hc1 _ Hi). cbn in Hc1. now destruct (d_appnack d).
  - destruct HR as (l & El & Hc). assert (Hc1 : clean (l ++ tr s0)) by now apply clean_app. rewrite <- El in Hc1. destruct Hc1 as [C1 C2].
    rewrite forallb_forall in C1. unfold pipeline_status. rewrite Hgood.
    + destruct (existsb is_throw h) eqn:E1; [exfalso; apply ex_throw, Hin in E1; specialize (C1 _ E1); discriminate|].
      destruct (existsb is_failure h) eqn:E2; [exfalso; apply ex_failure in E2; destruct E2 as (rs & E2); apply Hin in E2; exact (C2 rs E2)|].
      reflexivity.
    + intros k d Hi. apply Hin in Hi. specialize (C1 _ Hi). cbn in C1. now destruct (d_appnack d).
Qed.
End Run.
