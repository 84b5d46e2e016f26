(** From the invariant of the fixed pipeline to statements about its history. *)
From Verif Require Import Base BaseFacts PipelineBase PipelineSpec FetcherModel AdaptiveProofs AdaptiveTheorems.
From Verif Require Import ConsumerModel CatchunksModel CatchunksSpec CatchunksProofs.
From Verif Require Import FixedModel FixedSpec FixedProofs FixedInv FixedInv2 FixedInv3 FixedInv4.

Lemma fl_rev h : fl (rev h) = in_flight h.
Proof.
  unfold in_flight. rewrite <- (rev_involutive h) at 2. rewrite <- fold_left_rev_right, rev_involutive.
  generalize (rev h). intros l. induction l as [|o l IH]; cbn; [reflexivity|]. now rewrite IH.
Qed.
Lemma aw_rev h : aw (rev h) = awaited h.
Proof.
  unfold awaited. rewrite <- (rev_involutive h) at 2. rewrite <- fold_left_rev_right, rev_involutive.
  generalize (rev h). intros l. induction l as [|o l IH]; cbn; [reflexivity|]. now rewrite IH.
Qed.
Lemma xend_app a b : xend (a ++ b) = xend a || xend b.
Proof. induction a as [|o a IH]; cbn; [reflexivity|]. now rewrite IH, orb_assoc. Qed.
Lemma xend_rev h : xend (rev h) = existsb is_stop h.
Proof.
  induction h as [|o h IH]; cbn; [reflexivity|]. rewrite xend_app, IH. cbn. rewrite orb_false_r. apply orb_comm.
Qed.

Lemma xtr_ok_at C l o t : xtr_ok C (l ++ o :: t) -> XG C t o /\ xtr_ok C t.
Proof. induction l as [|x l IH]; cbn; [auto|]. intros [_ H]. auto. Qed.
Lemma xtr_ok_app C l t : xtr_ok C (l ++ t) -> xtr_ok C t.
Proof. induction l as [|x l IH]; cbn; [auto|]. intros [_ H]. auto. Qed.

Lemma xtr_ok_first_sends C h : xtr_ok C (rev h) -> first_sends h = upto (length (first_sends h)).
Proof.
  intros H. rewrite <- (rev_involutive h). revert H. generalize (rev h). intros t.
  induction t as [|o t IH]; cbn [rev xtr_ok]; [reflexivity|]. intros [HG Hok]. specialize (IH Hok).
  rewrite first_sends_app, app_length. destruct o; try (cbn; rewrite app_nil_r, Nat.add_0_r; exact IH).
  destruct retx; [cbn; rewrite app_nil_r, Nat.add_0_r; exact IH|].
  cbn in HG. destruct HG as (_ & _ & _ & _ & ->).
  change (first_sends [OInterest (nf t) false]) with [nf t]. cbn [length].
  rewrite Nat.add_1_r, upto_S, <- IH. f_equal. f_equal.
  rewrite <- (rev_involutive t) at 1. now rewrite nf_rev.
Qed.

Lemma xtr_fl_bound C t : xtr_ok C t -> (length (fl t) <= xc_size C)%nat.
Proof.
  induction t as [|o t IH]; cbn [xtr_ok]; [cbn; lia|]. intros [HG Hok]. specialize (IH Hok).
  assert (Hrem : forall k l, (length (remove N.eq_dec k l) <= length l)%nat) by (intros; apply remove_length_le).
  destruct o; cbn [fl flight_step]; auto; try (eapply Nat.le_trans; [apply Hrem|exact IH]).
  cbn in HG. cbn [length]. specialize (Hrem seg (fl t)). lia.
Qed.

Lemma xtr_dl_nf C t : xtr_ok C t -> forall k, In k (dl t) -> (k < nf t)%N.
Proof.
  induction t as [|x t IH]; cbn; [contradiction|]. intros [HG Hok] k.
  destruct x; try (apply IH; exact Hok).
  - destruct retx; [apply IH; exact Hok|]. intros H. specialize (IH Hok k H). lia.
  - cbn in HG. intros [<-|H]; [tauto|]. now apply IH.
Qed.
Lemma xtr_dl_nodup C t : xtr_ok C t -> NoDup (dl t).
Proof.
  induction t as [|o t IH]; cbn; [constructor|]. intros [HG Hok].
  destruct o; auto. cbn in HG. constructor; tauto.
Qed.
Lemma xtr_dl_got C t : xtr_ok C t -> forall k, In k (dl t) -> exists d, In (OGotData k d) t.
Proof.
  induction t as [|x t IH]; cbn; [contradiction|]. intros [HG Hok] k.
  assert (Hrec : In k (dl t) -> exists d, x = OGotData k d \/ In (OGotData k d) t).
  { intros H. destruct (IH Hok k H) as (d & Hd). eauto. }
  destruct x; auto. cbn in HG. intros [<-|H]; [|auto]. exists d. tauto.
Qed.

(** With a genuine producer, all is over once completion was reported. *)
Lemma xtr_done C chunks t :
  xtr_ok C t -> genuine_history chunks t -> In ODone t ->
  exists n, known t = Some n /\ (forall k, (k <= n)%N -> In k (dl t)) /\ newly t = false /\
            (forall k, In k (dl t) -> (k <= n)%N).
Proof.
  induction t as [|x t IH]; [contradiction|]. intros [HG Hok] Hg Hin.
  assert (Hg' : genuine_history chunks t) by (intros k d H; apply Hg; now right).
  assert (Hdl : forall n, known t = Some n -> forall k, In k (dl t) -> (k <= n)%N).
  { intros n Hn k Hk. destruct (xtr_dl_got _ _ Hok k Hk) as (d & Hd). apply Hg' in Hd.
    rewrite <- (rev_involutive t), known_rev in Hn.
    apply (genuine_known chunks (rev t) n) in Hn; [|intros a b H; apply Hg'; now apply in_rev].
    destruct Hn as [-> Hne], Hd as [Hd _]. assert (N.to_nat k < length chunks)%nat; [|lia].
    apply nth_error_Some. congruence. }
  assert (Hx : x = ODone \/ In ODone t) by (destruct Hin; auto).
  clear Hin. destruct Hx as [->|Hin].
  - cbn in HG. destruct HG as (_ & _ & n & Hn & Hlen). exists n. cbn [known dl newly].
    rewrite Hn. split; [reflexivity|]. split; [|split; [reflexivity|now apply Hdl]].
    intros k Hk.
    assert (Hincl : incl (upto (S (N.to_nat n))) (dl t)).
    { apply NoDup_length_incl; [now apply (xtr_dl_nodup C)|rewrite length_upto; lia|].
      intros y Hy. apply in_upto. specialize (Hdl n Hn y Hy). lia. }
    apply Hincl. apply in_upto. lia.
  - destruct (IH Hok Hg' Hin) as (n & Hn & Hall & Hnew & Hle). exists n.
    assert (Hk : known (x :: t) = Some n) by (cbn; now rewrite Hn). split; [exact Hk|].
    destruct x; cbn [dl newly]; auto.
    cbn in HG. destruct HG as (_ & Hnd & _ & Hd). exfalso. apply Hnd, Hall. apply Hg' in Hd.
    rewrite <- (rev_involutive t), known_rev in Hn.
    apply (genuine_known chunks (rev t) n) in Hn; [|intros a b H; apply Hg'; now apply in_rev].
    destruct Hn as [-> Hne], Hd as [Hd _]. assert (N.to_nat seg < length chunks)%nat; [|lia].
    apply nth_error_Some. congruence.
Qed.

Lemma xtr_after_done C chunks t x :
  xtr_ok C (x :: t) -> genuine_history chunks t -> In ODone t -> is_action x = false.
Proof.
  intros [HG Hok] Hg Hin. destruct (xtr_done C chunks t Hok Hg Hin) as (n & Hn & Hall & Hnew & Hle).
  destruct x; try reflexivity; exfalso; cbn in HG.
  - destruct HG as (_ & H1 & _ & _ & H2). specialize (Hall seg (H1 n Hn)). destruct retx; [tauto|].
    apply (xtr_dl_nf C t Hok) in Hall. lia.
  - destruct HG as (_ & H1 & _ & Hd). apply H1, Hall. apply Hg in Hd.
    rewrite <- (rev_involutive t), known_rev in Hn.
    apply (genuine_known chunks (rev t) n) in Hn; [|intros a b H; apply Hg; now apply in_rev].
    destruct Hn as [-> Hne], Hd as [Hd _]. assert (N.to_nat seg < length chunks)%nat; [|lia].
    apply nth_error_Some. congruence.
  - assert (Hlen : (N.to_nat n < length (dl t))%nat).
    { assert (E : (length (upto (S (N.to_nat n))) <= length (dl t))%nat); [|rewrite length_upto in E; lia].
      apply NoDup_incl_length.
      - unfold upto. apply FinFun.Injective_map_NoDup; [intros a b; lia|apply seq_NoDup].
      - intros k Hk. apply in_upto in Hk. apply Hall. lia. }
    destruct HG as (_ & HG). destruct r; try contradiction.
    + destruct HG as (_ & H). specialize (H n Hn). lia.
    + destruct HG as (_ & H1 & m & H2 & H3). rewrite Hn in H2. injection H2 as <-. auto.
    + destruct HG as (_ & H1 & m & H2 & H3). rewrite Hn in H2. injection H2 as <-. auto.
  - destruct HG as (_ & H & _). congruence.
Qed.

Section Theorems.
Variable C : xconfig.
Variable es : list xevent.
Hypothesis Hsize : (0 < xc_size C)%nat.
Notation s := (x_run C es).
Notation h := (x_history (x_run C es)).
Notation r := (xc_maxRetries C).

Lemma xhist_ok : xtr_ok C (rev h).
Proof. unfold x_history. rewrite rev_involutive. exact (proj1 (run_ok C es Hsize)). Qed.

Lemma xhist_at h1 o h2 : h = h1 ++ o :: h2 -> XG C (rev h1) o /\ xtr_ok C (rev h1).
Proof. intros E. pose proof xhist_ok as H. rewrite (rev_split _ _ _ _ E) in H. eapply xtr_ok_at; eauto. Qed.

Lemma xhist_prefix h1 h2 : h = h1 ++ h2 -> xtr_ok C (rev h1).
Proof. intros E. pose proof xhist_ok as H. rewrite E, rev_app_distr in H. eapply xtr_ok_app; eauto. Qed.

Lemma xsent_before h1 h2 k : h = h1 ++ h2 -> (k < nf (rev h1))%N -> In (OInterest k false) h1.
Proof.
  intros E H. apply in_first_sends. rewrite (xtr_ok_first_sends C h1 (xhist_prefix _ _ E)). apply in_upto.
  rewrite nf_rev in H. exact H.
Qed.

(** C05 *)
Lemma fixed_once : NoDup (map fst (deliveries h)).
Proof.
  pose proof (xtr_dl_nodup C _ xhist_ok) as H. rewrite dl_rev in H. apply NoDup_rev in H. now rewrite rev_involutive in H.
Qed.
Lemma fixed_delivery_genuine h1 seg d h2 :
  h = h1 ++ ODeliver seg d :: h2 -> In (OGotData seg d) h1 /\ In (OInterest seg false) h1.
Proof.
  intros E. destruct (xhist_at _ _ _ E) as [HG _]. cbn in HG. destruct HG as (_ & _ & H1 & H2).
  split; [now apply in_rev|]. eapply xsent_before; eauto.
Qed.

(** C06 *)
Lemma fixed_final h1 seg x h2 n :
  h = h1 ++ OInterest seg x :: h2 -> known_last h1 = Some n -> (seg <= n)%N.
Proof.
  intros E. destruct (xhist_at _ _ _ E) as [HG _]. cbn in HG. destruct HG as (_ & H & _).
  rewrite known_rev in H. apply H.
Qed.

(** C07 *)
Lemma fixed_in_order : first_sends h = upto (length (first_sends h)).
Proof. apply (xtr_ok_first_sends C), xhist_ok. Qed.
Lemma fixed_resend h1 seg h2 :
  h = h1 ++ OInterest seg true :: h2 ->
  In (OInterest seg false) h1 /\ ~ In seg (map fst (deliveries h1)).
Proof.
  intros E. destruct (xhist_at _ _ _ E) as [HG _]. cbn in HG. destruct HG as (_ & _ & _ & _ & H1 & H2).
  split; [eapply xsent_before; eauto|]. rewrite dl_rev, <- in_rev in H2. exact H2.
Qed.

(** C08 *)
Lemma fixed_window h1 h2 : h = h1 ++ h2 -> (length (in_flight h1) <= xc_size C)%nat.
Proof. intros E. rewrite <- fl_rev. apply xtr_fl_bound, (xhist_prefix _ _ E). Qed.

(** C10 *)
Lemma fixed_stop h1 o h2 :
  h = h1 ++ o :: h2 -> is_stop o = true -> forall x, In x h2 -> is_action x = false.
Proof.
  intros E Ho x Hx. apply in_split in Hx. destruct Hx as (a & b & ->).
  assert (E' : h = (h1 ++ o :: a) ++ x :: b) by (rewrite E, <- app_assoc; reflexivity).
  destruct (xhist_at _ _ _ E') as [HG _].
  assert (Hend : xend (rev (h1 ++ o :: a)) = true).
  { rewrite xend_rev, existsb_app. cbn. rewrite Ho. apply orb_true_r. }
  destruct x; try reflexivity; cbn in HG; destruct HG as [HG _]; congruence.
Qed.
Lemma fixed_after_done h1 h2 chunks :
  h = h1 ++ ODone :: h2 -> genuine_history chunks h -> forall x, In x h2 -> is_action x = false.
Proof.
  intros E Hg x Hx. apply in_split in Hx. destruct Hx as (a & b & ->).
  assert (E' : h = (h1 ++ ODone :: a) ++ x :: b) by (rewrite E, <- app_assoc; reflexivity).
  destruct (xhist_at _ _ _ E') as [HG Hok].
  eapply (xtr_after_done C chunks (rev (h1 ++ ODone :: a)) x); [split; assumption| |].
  - intros k d H. apply Hg. rewrite E'. apply in_or_app. left. now apply in_rev.
  - apply -> in_rev. apply in_or_app. right. now left.
Qed.

(** C14 *)
Lemma lost_rev h1 seg : lostx C (rev h1) seg -> gave_up r h1 seg.
Proof.
  unfold lostx, gave_up, refused. rewrite !count_rev. intros [(rr & H1 & H2 & H3)|H]; [left|right; exact H].
  exists rr. repeat split; auto. now apply in_rev.
Qed.
Lemma fixed_failure h1 rs h2 : h = h1 ++ OFail rs :: h2 -> failure_caused_fixed r h1 rs.
Proof.
  intros E. destruct (xhist_at _ _ _ E) as [HG _]. cbn [XG] in HG. destruct HG as (_ & HG).
  destruct rs; try contradiction; cbn.
  - destruct HG as ((seg & H) & _). exists seg. now apply lost_rev.
  - rewrite known_rev in HG. destruct HG as (H1 & _ & H2). split; [now apply lost_rev|exact H2].
  - rewrite known_rev in HG. destruct HG as (H1 & _ & H2). split; [now apply lost_rev|exact H2].
Qed.

(** assertions hold *)
Lemma fixed_no_assert : ~ In OAssert h.
Proof. intros H. apply in_split in H. destruct H as (a & b & E). destruct (xhist_at _ _ _ E) as [HG _]. exact HG. Qed.

(** Completion *)
Lemma fixed_done h1 h2 : h = h1 ++ ODone :: h2 ->
  exists n, known_last h1 = Some n /\ (N.to_nat n < length (deliveries h1))%nat.
Proof.
  intros E. destruct (xhist_at _ _ _ E) as [HG _]. cbn in HG. destruct HG as (_ & _ & n & H1 & H2).
  exists n. rewrite known_rev in H1. split; [exact H1|].
  rewrite dl_rev, rev_length, map_length in H2. exact H2.
Qed.

(** C03, C04 *)
Lemma fixed_prefix_facts h1 h2 chunks :
  h = h1 ++ h2 -> genuine_history chunks h1 ->
  NoDup (map fst (deliveries h1)) /\ (forall k d, In (k, d) (deliveries h1) -> genuine chunks k d).
Proof.
  intros E Hg. split.
  - pose proof fixed_once as H. rewrite E, deliveries_app, map_app in H.
    eapply nodup_app_l; eauto.
  - intros k d H. apply in_deliveries in H. apply in_split in H. destruct H as (a & b & ->).
    apply Hg. apply in_or_app. left.
    apply (fixed_delivery_genuine a k d (b ++ h2)). rewrite E, <- app_assoc. reflexivity.
Qed.

Lemma fixed_stdout_prefix h1 h2 chunks :
  h = h1 ++ h2 -> genuine_history chunks h1 -> is_prefix (catchunks_stdout h1) (concat chunks).
Proof. intros E Hg. destruct (fixed_prefix_facts h1 h2 chunks E Hg). now apply stdout_prefix. Qed.

Lemma fixed_stdout_done chunks :
  In ODone h -> genuine_history chunks h -> catchunks_stdout h = concat chunks.
Proof.
  intros Hd Hg. destruct (fixed_prefix_facts h [] chunks) as [H1 H2]; [now rewrite app_nil_r|exact Hg|].
  apply stdout_complete; auto. apply in_split in Hd. destruct Hd as (h1 & h2 & E).
  assert (Hg1 : genuine_history chunks h1).
  { intros seg d H. apply Hg. rewrite E. apply in_or_app. now left. }
  destruct (fixed_done _ _ E) as (n & Hn & Hlen).
  destruct (genuine_known _ _ _ Hg1 Hn) as [-> Hne].
  rewrite E, deliveries_app, app_length. destruct chunks; [congruence|]. cbn in *. lia.
Qed.
End Theorems.

(** * A crash is visible in the history *)
Section Crash.
Variable C : xconfig.
Definition vis (s : xstate) : Prop := x_crashed s = true -> In OThrow (x_tr s).

Lemma vis_emit o s : vis s -> vis (x_emit o s).
Proof. intros H Hc. right. now apply H. Qed.
Lemma vis_abandon b l hf o s : vis s -> vis (XState b l hf (x_crashed s) (o ++ x_tr s)).
Proof. intros H Hc. apply in_or_app. right. now apply H. Qed.
Lemma vis_cancel s : vis s -> vis (x_cancel s).
Proof. intros H. unfold x_cancel. destruct (b_stopping (x_b s)); [exact H|]. now apply vis_abandon. Qed.
Lemma vis_onFailure rs s : vis s -> vis (x_onFailure rs s).
Proof. intros H. unfold x_onFailure. destruct (b_stopping (x_b s)); [exact H|]. now apply vis_emit, vis_cancel. Qed.
Lemma vis_fetchNext i s : vis s -> vis (fst (fetchNextSegment C i s)).
Proof.
  intros H. unfold fetchNextSegment. destruct (b_stopping (x_b s)); [exact H|].
  destruct (x_hasFailure s); [now apply vis_onFailure|]. destruct (b_getNext (x_b s)) as [next b].
  destruct (b_hasFbi b && (b_last b <? next)%N); [exact H|]. cbn [fst].
  assert (H1 : vis (x_emit (OInterest next false) (x_setB b s))) by (apply vis_emit; exact H).
  destruct (nth_error _ i) as [[[f k]|]|]; try exact H1. destruct (f_isRunning f); [|exact H1].
  apply (vis_emit OAssert _ H1).
Qed.
Lemma vis_doRun k : forall i s, vis s -> vis (x_doRun C k i s).
Proof.
  induction k as [|k IH]; intros i s H; [exact H|]. cbn. pose proof (vis_fetchNext i s H) as H1.
  destruct (fetchNextSegment C i s) as [s' ok]. destruct ok; auto.
Qed.
Lemma vis_advance i s : vis s -> vis (x_advance C i s).
Proof. intros H. unfold x_advance. destruct (b_allReceived (x_b s)); [now apply vis_emit|now apply vis_fetchNext]. Qed.
Lemma vis_handleData i seg d s : vis s -> vis (x_handleData C i seg d s).
Proof.
  intros H. unfold x_handleData. destruct (b_stopping (x_b s)); [exact H|].
  set (s1 := x_emit _ _). assert (H1 : vis s1) by (apply vis_emit; exact H).
  assert (Hcr : vis (x_crash s1)) by (intros _; now left).
  destruct (xc_cbThrows C d); [exact Hcr|]. destruct (b_hasFbi (x_b s1)); [now apply vis_advance|].
  destruct (d_fbi d); auto using vis_advance.
  destruct (x_learn n (x_slots s1)) as [[l o] e].
  assert (H2 : vis (XState (b_setFbi n (x_b s1)) l (x_hasFailure s1) (x_crashed s1) (rev o ++ x_tr s1)))
    by now apply vis_abandon.
  destruct e; auto using vis_onFailure, vis_advance.
Qed.
Lemma vis_handleFail seg s : vis s -> vis (x_handleFail seg s).
Proof.
  intros H. unfold x_handleFail. destruct (b_stopping (x_b s)); [exact H|].
  destruct (b_hasFbi (x_b s) && (seg <=? b_last (x_b s))%N); [now apply vis_onFailure|].
  destruct (b_hasFbi (x_b s)); [exact H|].
  set (s1 := XState _ _ _ _ _). assert (H1 : vis s1) by now apply vis_abandon.
  destruct (existsb _ _); [exact H1|now apply vis_onFailure].
Qed.
Lemma vis_react i seg d s o : vis s -> vis (x_react C i seg d s o).
Proof. intros H. destruct o; cbn; auto using vis_emit, vis_handleData, vis_handleFail. Qed.
Lemma vis_run es : vis (x_run C es).
Proof.
  unfold x_run. apply fold_left_inv.
  - intros s e H. unfold x_step. destruct (x_crashed s) eqn:Hc; [exact H|].
    assert (HE : forall i d fe, vis (x_slotEvent C i d fe s)).
    { intros i d fe. unfold x_slotEvent. destruct (nth_error (x_slots s) i) as [[[f seg]|]|]; try exact H.
      destruct (f_step (x_fconfig C) f fe) as [f' os]. apply fold_left_inv; [intros; now apply vis_react|exact H]. }
    destruct e; auto. now apply vis_cancel, vis_emit.
  - apply vis_doRun. discriminate.
Qed.
End Crash.

(** C15 *)
Lemma fixed_progress C es :
  (0 < xc_size C)%nat ->
  let h := x_history (x_run C es) in
  existsb is_over h = false -> ~ In OThrow h -> awaited h <> [].
Proof.
  intros Hs h Hover Hthrow. destruct (run_ok C es Hs) as [_ HJ].
  assert (Hc : x_crashed (x_run C es) = false).
  { destruct (x_crashed (x_run C es)) eqn:E; [|reflexivity]. exfalso. apply Hthrow. unfold h, x_history.
    apply -> in_rev. now apply vis_run in E. }
  specialize (HJ Hc). destruct HJ as [[HA HR] HB].
  assert (Hn : forall o, is_over o = true -> ~ In o h).
  { intros o Ho Hi. apply not_true_iff_false in Hover. apply Hover, existsb_exists. eauto. }
  assert (Hst : b_stopping (x_b (x_run C es)) = false).
  { rewrite <- (X_end _ _ HA). rewrite <- (rev_involutive (x_tr _)), xend_rev.
    apply not_true_iff_false. intros H. apply existsb_exists in H. destruct H as (o & H1 & H2).
    apply (Hn o); [destruct o; try discriminate; reflexivity|exact H1]. }
  destruct (HB Hst) as [Hd|(j & f & k & Hj & Hrun)].
  - exfalso. apply (Hn ODone); [reflexivity|]. unfold h, x_history. now apply -> in_rev.
  - assert (Hin : In k (aw (x_tr (x_run C es)))).
    { destruct (Y_slot _ _ _ (HR Hst) j f k Hj) as (_ & Hp & _).
      destruct (f_phase f); [congruence|apply fl_aw|]; tauto. }
    rewrite <- (rev_involutive (x_tr _)), aw_rev in Hin. fold (x_history (x_run C es)) in Hin. fold h in Hin.
    intros E. rewrite E in Hin. contradiction.
Qed.
