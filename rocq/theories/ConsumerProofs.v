From Coq Require Import Sorted.
From Verif Require Import Base BaseFacts ConsumerModel ConsumerSpec.

Definition lt_key (a b : N * data) : Prop := (fst a < fst b)%N.

Lemma sm_set_in k d m x :
  In x (sm_set k d m) -> x = (k, d) \/ (In x m /\ fst x <> k) \/ In x m.
Proof.
  induction m as [|[k' d'] m IH]; cbn; [intuition|].
  destruct (N.ltb_spec k k'); [cbn; intuition|].
  destruct (N.eqb_spec k k'); cbn; intuition.
Qed.

Lemma sm_set_new k d m :
  ~ In k (map fst m) -> Permutation (sm_set k d m) ((k, d) :: m).
Proof.
  induction m as [|[k' d'] m IH]; cbn; [auto|]. intros H.
  destruct (N.ltb_spec k k'); [auto|].
  destruct (N.eqb_spec k k') as [->|]; [exfalso; apply H; now left|].
  rewrite IH by (intros H'; apply H; now right). apply perm_swap.
Qed.

Lemma sm_set_sorted k d m :
  StronglySorted lt_key m -> StronglySorted lt_key (sm_set k d m).
Proof.
  induction m as [|[k' d'] m IH]; cbn; intros HS.
  - constructor; constructor.
  - inversion HS as [|? ? HS' HF]; subst.
    destruct (N.ltb_spec k k').
    + constructor; [exact HS|]. constructor; [exact H|].
      eapply Forall_impl; [|exact HF]. unfold lt_key; cbn. intros; lia.
    + destruct (N.eqb_spec k k') as [->|Hne].
      * constructor; [exact HS'|]. exact HF.
      * constructor; [auto|]. apply Forall_forall. intros x Hx.
        apply sm_set_in in Hx. rewrite Forall_forall in HF.
        destruct Hx as [->|[[Hx _]|Hx]]; [unfold lt_key; cbn; lia| |]; now apply HF.
Qed.

(** Invariant: [segs] are the accepted segments, [done] those written *)
Record CInv (segs : list (N * data)) (c : consumer) : Prop := {
  V_run : co_status c = CRunning;
  V_sorted : StronglySorted lt_key (co_buf c);
  V_split : exists chunks,
      length chunks = N.to_nat (co_next c) /\
      co_out c = concat (map d_content chunks) /\
      Permutation segs (combine (map N.of_nat (seq 0 (length chunks))) chunks ++ co_buf c);
  V_ge : forall k d, In (k, d) (co_buf c) -> (co_next c < k)%N
}.

Lemma combine_snoc {A B} (l1 : list A) (l2 : list B) a b :
  length l1 = length l2 -> combine (l1 ++ [a]) (l2 ++ [b]) = combine l1 l2 ++ [(a, b)].
Proof.
  revert l2. induction l1 as [|x l1 IH]; intros [|y l2]; cbn; try discriminate; [reflexivity|].
  intros H. injection H as H. now rewrite IH.
Qed.

Lemma write_inv segs buf : forall next out,
  StronglySorted lt_key buf ->
  (exists chunks, length chunks = N.to_nat next /\ out = concat (map d_content chunks) /\
     Permutation segs (combine (map N.of_nat (seq 0 (length chunks))) chunks ++ buf)) ->
  (forall k d, In (k, d) buf -> (next <= k)%N) ->
  let '(next', buf', out') := writeInOrderData buf next out in
  CInv segs (Consumer next' buf' out' CRunning).
Proof.
  induction buf as [|[k d] buf IH]; intros next out HS Hch Hge; cbn [writeInOrderData].
  - constructor; cbn; auto. intros ? ? [].
  - inversion HS as [|? ? HS' HF]; subst. rewrite Forall_forall in HF.
    destruct (N.eqb_spec k next) as [->|Hne].
    + apply IH; [exact HS'| |].
      * destruct Hch as (ch & Hlen & -> & HP). exists (ch ++ [d]).
        rewrite app_length, map_app, concat_app. cbn. split; [lia|]. split; [now rewrite app_nil_r|].
        rewrite HP. rewrite seq_app, map_app. cbn.
        rewrite combine_snoc by now rewrite map_length, seq_length.
        rewrite Hlen, N2Nat.id. rewrite <- app_assoc. cbn. reflexivity.
      * intros k' d' H. specialize (HF _ H). unfold lt_key in HF. cbn in HF. lia.
    + constructor; cbn; auto.
      intros k' d' [[= -> ->]|H].
      * specialize (Hge k' d' (or_introl eq_refl)). lia.
      * specialize (HF _ H). unfold lt_key in HF. cbn in HF.
        specialize (Hge k d (or_introl eq_refl)). lia.
Qed.

Lemma in_combine_seq {B} (l : list B) k b :
  In (k, b) (combine (map N.of_nat (seq 0 (length l))) l) <-> nth_error l (N.to_nat k) = Some b.
Proof.
  enough (H : forall o, In (k, b) (combine (map N.of_nat (seq o (length l))) l) <->
                        (o <= N.to_nat k)%nat /\ nth_error l (N.to_nat k - o) = Some b).
  { rewrite H, Nat.sub_0_r. intuition lia. }
  induction l as [|x l IH]; intros o; cbn [length seq map combine].
  - cbn. split; [contradiction|]. intros [_ H]. now rewrite nth_error_nil in H || destruct (N.to_nat k - o)%nat.
  - cbn [In]. rewrite IH. split.
    + intros [[= <- <-]|[H1 H2]].
      * rewrite Nat2N.id, Nat.sub_diag. auto.
      * split; [lia|]. replace (N.to_nat k - o)%nat with (S (N.to_nat k - S o)) by lia. exact H2.
    + intros [H1 H2]. destruct (Nat.eq_dec (N.to_nat k) o) as [<-|Hne].
      * rewrite Nat.sub_diag in H2. injection H2 as <-. left. now rewrite N2Nat.id.
      * right. split; [lia|]. replace (N.to_nat k - o)%nat with (S (N.to_nat k - S o)) in H2 by lia. exact H2.
Qed.

Lemma inv_accept segs c seg d :
  CInv segs c -> d_appnack d = false -> ~ In seg (map fst segs) ->
  CInv ((seg, d) :: segs) (co_step c (CeAccept seg d)).
Proof.
  intros [Hrun HS (ch & Hlen & Hout & HP) Hge] Hd Hnew. unfold co_step. rewrite Hrun, Hd.
  assert (Hseg : (co_next c <= seg)%N).
  { destruct (N.leb_spec (co_next c) seg) as [|Hlt]; [assumption|exfalso].
    apply Hnew. apply (Permutation_map fst) in HP. rewrite HP, map_app. apply in_or_app. left.
    assert (Hn : (N.to_nat seg < length ch)%nat) by lia.
    destruct (nth_error ch (N.to_nat seg)) as [x|] eqn:E; [|apply nth_error_None in E; lia].
    apply in_map_iff. exists (seg, x). split; [reflexivity|]. now apply in_combine_seq. }
  assert (Hnb : ~ In seg (map fst (co_buf c))).
  { intros H. apply Hnew. apply (Permutation_map fst) in HP. rewrite HP, map_app. apply in_or_app. now right. }
  pose proof (write_inv ((seg, d) :: segs) (sm_set seg d (co_buf c)) (co_next c) (co_out c)) as H.
  destruct (writeInOrderData _ _ _) as [[n' b'] o']. apply H.
  - now apply sm_set_sorted.
  - exists ch. split; [exact Hlen|]. split; [exact Hout|].
    rewrite sm_set_new by exact Hnb. rewrite HP. apply Permutation_middle.
  - intros k' d' Hin. apply (Permutation_in _ (sm_set_new seg d _ Hnb)) in Hin.
    destruct Hin as [[= <- <-]|Hin]; [exact Hseg|]. specialize (Hge _ _ Hin). lia.
Qed.

Lemma inv_run_accept segs : forall acc c,
  CInv acc c -> NoDup (map fst (segs ++ acc)) -> (forall k d, In (k, d) segs -> d_appnack d = false) ->
  CInv (rev segs ++ acc) (fold_left co_step (map (fun x => CeAccept (fst x) (snd x)) segs) c).
Proof.
  induction segs as [|[k d] segs IH]; intros acc c HI Hnd Hok; cbn; [exact HI|].
  rewrite <- app_assoc. cbn in Hnd. inversion Hnd as [|? ? Hni Hnd']; subst.
  rewrite map_app, in_app_iff in Hni.
  apply (IH ((k, d) :: acc)).
  - apply inv_accept; [exact HI|eapply Hok; now left|tauto].
  - rewrite map_app. cbn. apply NoDup_Add with (a := k) (l := map fst segs ++ map fst acc).
    + apply Add_app.
    + split; [now rewrite <- map_app|]. rewrite in_app_iff. tauto.
  - intros k' d' H. eapply Hok. right. exact H.
Qed.

Lemma CInv_init : CInv [] co_init.
Proof.
  constructor; cbn; auto; [constructor| |contradiction].
  exists []. cbn. auto.
Qed.

Lemma consumer_run_inv (segs : list (N * data)) :
  NoDup (map fst segs) -> (forall k d, In (k, d) segs -> d_appnack d = false) ->
  CInv (rev segs) (co_run (map (fun x => CeAccept (fst x) (snd x)) segs)).
Proof.
  intros Hnd Hok. rewrite <- (app_nil_r (rev segs)). apply inv_run_accept; auto using CInv_init.
  now rewrite app_nil_r.
Qed.

Lemma CInv_gapfree segs c : CInv segs c -> gapfree segs (co_out c).
Proof.
  intros [_ _ (ch & Hlen & Hout & HP) Hge]. exists (map d_content ch).
  split; [exact Hout|]. split.
  - intros k cc H. rewrite nth_error_map in H.
    destruct (nth_error ch k) as [d|] eqn:E; [|discriminate]. injection H as <-.
    exists d. split; [|reflexivity]. rewrite HP. apply in_or_app. left.
    apply in_combine_seq. now rewrite Nat2N.id.
  - intros d Hin. rewrite map_length in Hin. rewrite HP in Hin. apply in_app_or in Hin.
    destruct Hin as [Hin|Hin].
    + apply in_combine_seq in Hin. rewrite Nat2N.id in Hin.
      assert (nth_error ch (length ch) = None) by (apply nth_error_None; lia). congruence.
    + apply Hge in Hin. lia.
Qed.

Lemma consumer_in_order_lemma (segs : list (N * data)) :
  NoDup (map fst segs) -> (forall k d, In (k, d) segs -> d_appnack d = false) ->
  gapfree segs (co_out (co_run (map (fun x => CeAccept (fst x) (snd x)) segs))).
Proof.
  intros Hnd Hok. pose proof (CInv_gapfree _ _ (consumer_run_inv segs Hnd Hok)) as (ch & H1 & H2 & H3).
  exists ch. split; [exact H1|]. split.
  - intros k c H. destruct (H2 k c H) as (d & Hd & Hc). exists d. split; [now apply in_rev|exact Hc].
  - intros d H. apply (H3 d). now apply in_rev in H.
Qed.

(** gap-free output is unique *)
Lemma gapfree_unique segs out1 out2 :
  NoDup (map fst segs) -> gapfree segs out1 -> gapfree segs out2 -> out1 = out2.
Proof.
  intros Hnd (c1 & -> & P1 & E1) (c2 & -> & P2 & E2). f_equal.
  assert (Hfun : forall k d1 d2, In (k, d1) segs -> In (k, d2) segs -> d1 = d2).
  { clear -Hnd. induction segs as [|[k' d'] segs IH]; [contradiction|].
    cbn in Hnd. inversion Hnd as [|? ? Hni Hnd']; subst. intros k d1 d2 H1 H2.
    destruct H1 as [H1|H1], H2 as [H2|H2].
    - congruence.
    - exfalso. apply Hni. apply in_map_iff. injection H1 as -> ->. now exists (k, d2).
    - exfalso. apply Hni. apply in_map_iff. injection H2 as -> ->. now exists (k, d1).
    - eauto. }
  assert (Hlen : length c1 = length c2).
  { destruct (Nat.lt_trichotomy (length c1) (length c2)) as [H|[H|H]]; [exfalso|exact H|exfalso].
    - destruct (nth_error c2 (length c1)) as [c|] eqn:E; [|apply nth_error_None in E; lia].
      destruct (P2 _ _ E) as (d & Hd & _). now apply (E1 d).
    - destruct (nth_error c1 (length c2)) as [c|] eqn:E; [|apply nth_error_None in E; lia].
      destruct (P1 _ _ E) as (d & Hd & _). now apply (E2 d). }
  apply nth_ext with (d := []) (d' := []); [exact Hlen|].
  intros n Hn.
  destruct (nth_error c1 n) as [a|] eqn:Ea; [|apply nth_error_None in Ea; lia].
  destruct (nth_error c2 n) as [b|] eqn:Eb; [|apply nth_error_None in Eb; lia].
  rewrite (nth_error_nth _ _ _ Ea), (nth_error_nth _ _ _ Eb).
  destruct (P1 _ _ Ea) as (d1 & H1 & <-). destruct (P2 _ _ Eb) as (d2 & H2 & <-).
  now rewrite (Hfun _ _ _ H1 H2).
Qed.

(** * Bad segments *)
Lemma co_stopped es : forall c, co_status c <> CRunning -> fold_left co_step es c = c.
Proof.
  induction es as [|e es IH]; intros c Hc; [reflexivity|].
  assert (co_step c e = c) as E by (unfold co_step; destruct (co_status c); [contradiction|reflexivity|reflexivity]).
  cbn. rewrite E. now apply IH.
Qed.

Lemma co_step_good c e : is_bad e = false -> co_status c = CRunning -> co_status (co_step c e) = CRunning.
Proof.
  intros He Hc. unfold co_step. rewrite Hc. destruct e; [|discriminate]. cbn in He. rewrite He.
  destruct (writeInOrderData _ _ _) as [[? ?] ?]. reflexivity.
Qed.

Lemma co_run_good es : Forall (fun e => is_bad e = false) es -> co_status (co_run es) = CRunning.
Proof.
  intros HF. unfold co_run. assert (H : co_status co_init = CRunning) by reflexivity.
  revert H. generalize co_init. induction HF; intros c Hc; cbn; auto using co_step_good.
Qed.

Lemma consumer_bad_lemma (before after : list cevent) (bad : cevent) :
  Forall (fun e => is_bad e = false) before -> is_bad bad = true ->
  let c := co_run (before ++ bad :: after) in
  co_out c = co_out (co_run before) /\
  co_exit c = Some (match bad with CeReject _ _ => 5 | CeAccept _ _ => 3 end).
Proof.
  intros HF Hb. unfold co_run. rewrite fold_left_app. fold (co_run before). cbn [fold_left].
  pose proof (co_run_good before HF) as Hr.
  assert (E : co_step (co_run before) bad =
     Consumer (co_next (co_run before)) (co_buf (co_run before)) (co_out (co_run before))
       (match bad with CeReject _ _ => CInvalid | CeAccept _ _ => CAppNack end)).
  { unfold co_step. rewrite Hr. destruct bad; [|reflexivity]. cbn in Hb. now rewrite Hb. }
  rewrite E, co_stopped by (cbn; destruct bad; discriminate).
  cbn. split; [reflexivity|]. destruct bad; reflexivity.
Qed.

Lemma consumer_good_lemma (es : list cevent) :
  Forall (fun e => is_bad e = false) es -> co_exit (co_run es) = None.
Proof. intros HF. unfold co_exit. now rewrite co_run_good. Qed.
