From Verif Require Import Base BaseFacts PipelineBase PipelineSpec FetcherModel AdaptiveProofs AdaptiveTheorems FixedModel FixedSpec.

(** * Trace functions, latest event first *)
Fixpoint fl (t : list pobs) : list N := match t with [] => [] | o :: t' => flight_step (fl t') o end.
Fixpoint aw (t : list pobs) : list N := match t with [] => [] | o :: t' => await_step (aw t') o end.
Fixpoint xend (t : list pobs) : bool := match t with [] => false | o :: t' => is_stop o || xend t' end.
(** a segment was delivered since the last completion report *)
Fixpoint newly (t : list pobs) : bool :=
  match t with [] => false | ODone :: _ => false | ODeliver _ _ :: _ => true | _ :: t' => newly t' end.

Lemma in_remove k x (l : list N) : In x (remove N.eq_dec k l) <-> In x l /\ x <> k.
Proof. split; [apply in_remove|intros [? ?]; now apply in_in_remove]. Qed.
Lemma nodup_remove k (l : list N) : NoDup l -> NoDup (remove N.eq_dec k l).
Proof.
  induction 1 as [|x l Hx Hl IH]; cbn; [constructor|]. destruct (N.eq_dec k x); [exact IH|].
  constructor; [|exact IH]. rewrite in_remove. tauto.
Qed.
Lemma nodup_fl t : NoDup (fl t).
Proof.
  induction t as [|o t IH]; cbn; [constructor|].
  destruct o; cbn; auto using nodup_remove. constructor; [rewrite in_remove; tauto|]. now apply nodup_remove.
Qed.
Lemma fl_aw t k : In k (fl t) -> In k (aw t).
Proof.
  induction t as [|o t IH]; cbn; [tauto|].
  destruct o; cbn; rewrite ?in_remove; try tauto.
  intros H. destruct (N.eq_dec seg k); [now left|right]. auto.
Qed.

Definition is_ab (o : pobs) : bool := match o with OAbandon _ => true | _ => false end.
Lemma abandons_neutral l t : Forall (fun o => is_ab o = true) l ->
  nf (l ++ t) = nf t /\ dl (l ++ t) = dl t /\ known (l ++ t) = known t /\ xend (l ++ t) = xend t /\
  newly (l ++ t) = newly t /\
  (forall k, count (nack_for k) (l ++ t) = count (nack_for k) t) /\
  (forall k, count (expiry_for k) (l ++ t) = count (expiry_for k) t) /\
  (forall k, In k (aw (l ++ t)) <-> In k (aw t) /\ ~ In (OAbandon k) l) /\
  (forall k, In k (fl (l ++ t)) <-> In k (fl t) /\ ~ In (OAbandon k) l).
Proof.
  induction 1 as [|o l Ho Hl IH]; cbn [app]; [cbn; repeat split; auto; tauto|].
  destruct o as [| | | | | | | | | | | |seg| | | | |]; try discriminate.
  destruct IH as (H1 & H2 & H3 & H4 & H5 & H6 & H7 & H8 & H9).
  cbn [nf dl known xend newly aw fl flight_step await_step is_stop orb]. rewrite H1, H2, H3, H4, H5.
  assert (Hk : forall k (L L' : list N), (In k L <-> In k L' /\ ~ In (OAbandon k) l) ->
            In k (remove N.eq_dec seg L) <-> In k L' /\ ~ (OAbandon seg = OAbandon k \/ In (OAbandon k) l)).
  { intros k L L' H. rewrite in_remove, H. split.
    - intros [[A B] D]. split; [exact A|]. intros [E|E]; [injection E as ->; now apply D|now apply B].
    - intros [A B]. repeat split; auto. intros ->. apply B. now left. }
  split; [reflexivity|]. split; [reflexivity|]. split; [destruct (known t); reflexivity|].
  split; [reflexivity|]. split; [reflexivity|].
  split; [intros k; rewrite count_cons; cbn [nack_for]; rewrite H6; lia|].
  split; [intros k; rewrite count_cons; cbn [expiry_for]; rewrite H7; lia|].
  split; intros k; apply Hk; auto.
Qed.

(** * Slots *)
Lemma nth_upd {A} i (v : A) l j :
  nth_error (upd i v l) j = if Nat.eqb j i then (match nth_error l j with Some _ => Some v | None => None end)
                            else nth_error l j.
Proof.
  revert i j. induction l as [|a l IH]; intros [|i] [|j]; cbn; try reflexivity.
  - now destruct (Nat.eqb j i).
  - apply IH.
Qed.
Lemma length_upd {A} i (v : A) l : length (upd i v l) = length l.
Proof. revert i. induction l as [|a l IH]; intros [|i]; cbn; congruence. Qed.
Lemma upd_same {A} i (v : A) l : nth_error l i = Some v -> upd i v l = l.
Proof.
  revert i. induction l as [|a l IH]; intros [|i]; cbn; try discriminate; [congruence|].
  intros H. f_equal. auto.
Qed.

Lemma cancel_running f : f_isRunning f = true -> f_isRunning (f_cancel f) = false.
Proof. unfold f_cancel. intros H. rewrite H. reflexivity. Qed.
Lemma cancel_not_running f : f_isRunning (f_cancel f) = false.
Proof. unfold f_cancel. destruct (f_isRunning f) eqn:E; [reflexivity|exact E]. Qed.
Lemma cancel_error f : f_hasError (f_cancel f) = f_hasError f.
Proof. unfold f_cancel. destruct (f_isRunning f); reflexivity. Qed.
Lemma running_no_error f : f_isRunning f = true -> f_hasError f = false.
Proof. unfold f_isRunning. destruct (f_hasError f), (f_stopped f); cbn; congruence. Qed.

Section WithConfig.
Variable C : xconfig.
Notation r := (xc_maxRetries C).

Definition lostx (t : list pobs) (k : N) : Prop :=
  (exists rr, rr <> NrDuplicate /\ rr <> NrCongestion /\ In (OGotNack k rr) t) \/
  (r <> -1 /\ (r < count (nack_for k) t \/ r < count (expiry_for k) t)).

Lemma lostx_cons t k o : lostx t k -> lostx (o :: t) k.
Proof.
  unfold lostx. intros [(rr & H1 & H2 & H3)|(Hr & H)].
  - left. exists rr. repeat split; auto. now right.
  - right. split; [exact Hr|]. rewrite !count_cons. destruct (nack_for k o), (expiry_for k o); lia.
Qed.
Lemma lostx_app t k l : lostx t k -> lostx (l ++ t) k.
Proof. intros H. induction l; cbn; auto using lostx_cons. Qed.

Definition XG (t : list pobs) (o : pobs) : Prop :=
  match o with
  | OGotData seg _ | OGotNack seg _ | OGotExpiry seg => In seg (fl t)
  | OInterest seg retx =>
      xend t = false /\ (forall n, known t = Some n -> (seg <= n)%N) /\
      ~ In seg (fl t) /\ (length (fl t) < xc_size C)%nat /\
      (if retx then (seg < nf t)%N /\ ~ In seg (dl t) else seg = nf t)
  | ODeliver seg d =>
      xend t = false /\ ~ In seg (dl t) /\ (seg < nf t)%N /\ In (OGotData seg d) t
  | OFail rs =>
      xend t = false /\
      match rs with
      | RFetch seg | RSegment seg =>
          lostx t seg /\ ~ In seg (dl t) /\ exists n, known t = Some n /\ (seg <= n)%N
      | RNoFinal => (exists seg, lostx t seg) /\ (forall n, known t = Some n -> (length (dl t) <= N.to_nat n)%nat)
      | _ => False
      end
  | ODone => xend t = false /\ newly t = true /\ exists n, known t = Some n /\ (N.to_nat n < length (dl t))%nat
  | OAssert => False
  | _ => True
  end.

Fixpoint xtr_ok (t : list pobs) : Prop :=
  match t with [] => True | o :: t' => XG t' o /\ xtr_ok t' end.

Notation hasFbi s := (b_hasFbi (x_b s)).
Notation last s := (b_last (x_b s)).
Notation stopping s := (b_stopping (x_b s)).
Notation slotAt s j := (nth_error (x_slots s) j).

(** facts that hold at every moment, also within a handler *)
Record XA (s : xstate) : Prop := {
  X_next : (nf (x_tr s) <= b_next (x_b s))%N;
  X_dl   : forall k, In k (dl (x_tr s)) -> (k < nf (x_tr s))%N;
  X_known: known (x_tr s) = if hasFbi s then Some (last s) else None;
  X_recv : b_nReceived (x_b s) = Z.of_nat (length (dl (x_tr s)));
  X_end  : xend (x_tr s) = stopping s;
  X_ok   : xtr_ok (x_tr s);
  X_hf   : x_hasFailure s = true -> exists k, lostx (x_tr s) k;
  X_aw   : forall k, In k (aw (x_tr s)) ->
             exists j f, slotAt s j = Some (Some (f, k)) /\ f_isRunning f = true;
  X_stop : stopping s = true -> x_slots s = []
}.

(** facts about the slots between handlers; [fb]: the final segment as far as the slots
    are concerned *)
Definition beyond (fb : option N) (k : N) : Prop := match fb with Some n => (n < k)%N | None => False end.

Definition slot_ok (fb : option N) (s : xstate) (f : fetcher) (k : N) : Prop :=
  (k < nf (x_tr s))%N /\
  match f_phase f with
  | PhNone => f_isRunning f = false
  | PhInterest => f_isRunning f = true /\ In k (fl (x_tr s))
  | PhTimer => f_isRunning f = true /\ In k (aw (x_tr s)) /\ ~ In k (fl (x_tr s))
  end /\
  (f_isRunning f = true ->
     ~ In k (dl (x_tr s)) /\ ~ beyond fb k /\
     f_nNacks f = (if Z.eqb r (-1) then 0 else count (nack_for k) (x_tr s)) /\
     f_nTimeouts f = (if Z.eqb r (-1) then 0 else count (expiry_for k) (x_tr s))) /\
  (f_hasError f = true ->
     ~ In k (dl (x_tr s)) /\ lostx (x_tr s) k /\
     match fb with Some n => (n < k)%N | None => x_hasFailure s = true end) /\
  (f_isRunning f = false -> f_hasError f = false -> ~ In k (dl (x_tr s)) ->
     match fb with Some n => (n < k)%N
     | None => exists j f' k', slotAt s j = Some (Some (f', k')) /\ f_hasError f' = true /\ (k' < k)%N
     end).

Record XR (fb : option N) (s : xstate) : Prop := {
  Y_len  : length (x_slots s) = xc_size C;
  Y_inj  : forall i j f f' k, slotAt s i = Some (Some (f, k)) -> slotAt s j = Some (Some (f', k)) -> i = j;
  Y_slot : forall j f k, slotAt s j = Some (Some (f, k)) -> slot_ok fb s f k;
  Y_cov  : forall k, (k < nf (x_tr s))%N ->
             In k (dl (x_tr s)) \/ exists j f, slotAt s j = Some (Some (f, k));
  Y_phase: nf (x_tr s) = b_next (x_b s) \/ (exists n, fb = Some n /\ (n < nf (x_tr s))%N)
}.

Definition fbOf (s : xstate) : option N := if hasFbi s then Some (last s) else None.
Definition XI (s : xstate) : Prop := XA s /\ (stopping s = false -> XR (fbOf s) s).

Definition Busy (s : xstate) : Prop :=
  exists j f k, slotAt s j = Some (Some (f, k)) /\ f_isRunning f = true.
(** the invariant between events *)
Definition XJ (s : xstate) : Prop :=
  XI s /\ (stopping s = false -> In ODone (x_tr s) \/ Busy s).
End WithConfig.
