From Verif Require Import Base BaseFacts PipelineBase FetcherModel AdaptiveModel.

(** * Functions of the trace, latest event first *)
Definition fbi_of (d : data) : option N := match d_fbi d with FbiSegment n => Some n | _ => None end.

Fixpoint known (t : list pobs) : option N :=
  match t with
  | [] => None
  | o :: t' =>
      match known t' with
      | Some n => Some n
      | None => match o with OGotData _ d => fbi_of d | _ => None end
      end
  end.

Fixpoint nf (t : list pobs) : N :=
  match t with
  | [] => 0
  | OInterest _ false :: t' => N.succ (nf t')
  | _ :: t' => nf t'
  end.

Fixpoint dl (t : list pobs) : list N :=
  match t with
  | [] => []
  | ODeliver seg _ :: t' => seg :: dl t'
  | _ :: t' => dl t'
  end.

Fixpoint dsize (t : list pobs) : Z :=
  match t with
  | [] => 0
  | ODeliver _ d :: t' => dsize t' + Z.of_nat (length (d_content d))
  | _ :: t' => dsize t'
  end.

Fixpoint ended (t : list pobs) : bool :=
  match t with
  | [] => false
  | (OFail _ | ODone | OGotCancel) :: _ => true
  | _ :: t' => ended t'
  end.

Fixpoint cr (k : N) (t : list pobs) : Z :=
  match t with
  | [] => 0
  | OInterest seg true :: t' => (if N.eqb seg k then 1 else 0) + cr k t'
  | _ :: t' => cr k t'
  end.

Fixpoint recp (t : list pobs) : N :=
  match t with
  | [] => 0
  | (ODecrLoss _ | ODecrMark _) :: t' => N.pred (nf t')
  | _ :: t' => recp t'
  end.

(** * What every event of a trace satisfies, given the earlier events *)
Section WithConfig.
Variable C : aconfig.
Notation r := (c_maxRetries C).

Definition maxed (seg : N) (t : list pobs) : Prop := r <> -1 /\ cr seg t = Z.max 1 r.

Definition cause (t : list pobs) (seg : N) (rs : freason) : Prop :=
  match rs with
  | RNack k rr => k = seg /\ rr <> NrDuplicate /\ rr <> NrCongestion /\ In (OGotNack seg rr) t
  | RMaxRetries k => k = seg /\ maxed seg t
  | _ => False
  end.

Definition justF (t : list pobs) (rs : freason) : Prop :=
  match rs with
  | RNoFinal => known t = None /\ exists seg rs', cause t seg rs'
  | RNack seg _ | RMaxRetries seg => cause t seg rs /\ exists n, known t = Some n /\ (seg <= n)%N
  | _ => False
  end.

Definition loss_of (seg : N) (o : pobs) : bool :=
  match o with ORto k | OGotExpiry k | OGotNack k NrCongestion => N.eqb k seg | _ => false end.
Definition lostIn (seg : N) (t : list pobs) : Prop := exists o, In o t /\ loss_of seg o = true.

Definition G (t : list pobs) (o : pobs) : Prop :=
  match o with
  | OGotData seg _ | OGotNack seg _ | OGotExpiry seg | ORto seg => (seg < nf t)%N
  | OInterest seg retx =>
      ended t = false /\ (forall n, known t = Some n -> (seg <= n)%N) /\
      (if retx then (seg < nf t)%N /\ ~ In seg (dl t) /\ (r <> -1 -> cr seg t + 1 <= Z.max 1 r)
       else seg = nf t)
  | ODeliver seg d =>
      ended t = false /\ ~ In seg (dl t) /\ (seg < nf t)%N /\ In (OGotData seg d) t
  | OFail rs => ended t = false /\ justF t rs
  | ODone => ended t = false /\ exists n, known t = Some n /\ (N.to_nat n < length (dl t))%nat
  | ODecrLoss seg => (seg < nf t)%N /\ lostIn seg t /\ (c_disableCwa C = true \/ (recp t < seg)%N)
  | ODecrMark seg =>
      (seg < nf t)%N /\ ~ In seg (dl t) /\ (exists d, In (OGotData seg d) t /\ d_mark d = true) /\
      (c_disableCwa C = true \/ exists k, In k (seg :: dl t) /\ (recp t < k)%N)
  | ORttSample seg rtt n => 0 <= rtt /\ 1 <= n /\ cr seg t = 0
  | _ => True
  end.

Fixpoint tr_ok (t : list pobs) : Prop :=
  match t with [] => True | o :: t' => G t' o /\ tr_ok t' end.

Definition is_lost (o : pobs) : bool :=
  match o with OGotNack _ NrCongestion | OGotExpiry _ | ORto _ => true | _ => false end.
Definition is_to (o : pobs) : bool := match o with OGotExpiry _ | ORto _ => true | _ => false end.
Definition is_int (o : pobs) : bool := match o with OInterest _ _ => true | _ => false end.
Definition is_retx (o : pobs) : bool := match o with OInterest _ true => true | _ => false end.
Definition is_skip (o : pobs) : bool := match o with OSkip _ => true | _ => false end.
Definition is_marked (o : pobs) : bool := match o with ODeliver _ d => d_mark d | _ => false end.
Definition is_dloss (o : pobs) : bool := match o with ODecrLoss _ => true | _ => false end.
Definition is_dmark (o : pobs) : bool := match o with ODecrMark _ => true | _ => false end.

Section WithPolicy.
Context {W R : Type}.
Variable P : policy W R.
Notation st := (@astate W R).
Implicit Types s : st.

Notation hasFbi s := (b_hasFbi (a_b s)).
Notation last s := (b_last (a_b s)).
Notation stopping s := (b_stopping (a_b s)).
Notation inq s := (fun k => kmem k (a_segs s)).

Record Always s : Prop := {
  A_next : (nf (a_tr s) <= b_next (a_b s))%N;
  A_dl   : forall k, In k (dl (a_tr s)) -> (k < nf (a_tr s))%N;
  A_known: known (a_tr s) = if hasFbi s then Some (last s) else None;
  A_recv : b_nReceived (a_b s) = Z.of_nat (length (dl (a_tr s)));
  A_size : b_recvSize (a_b s) = dsize (a_tr s);
  A_end  : ended (a_tr s) = stopping s;
  A_q    : forall k, In k (a_retxq s) -> (k < nf (a_tr s))%N;
  A_cr   : forall k, match kget k (a_retxCount s) with
                     | None => cr k (a_tr s) = 0
                     | Some m => 1 <= m /\ cr k (a_tr s) <= m /\ (k < nf (a_tr s))%N
                     end;
  A_crmax: forall k, r <> -1 -> cr k (a_tr s) <= Z.max 1 r;
  A_ok   : tr_ok (a_tr s);
  A_hi   : a_highInterest s = N.pred (nf (a_tr s));
  A_rec  : a_recPoint s = recp (a_tr s);
  A_hd   : a_highData s = 0%N \/ In (a_highData s) (dl (a_tr s));
  A_sent : a_nSent s = count is_int (a_tr s);
  A_retx : a_nRetx s = count is_retx (a_tr s);
  A_to   : a_nTimeouts s = count is_to (a_tr s);
  A_skip : a_nSkipped s = count is_skip (a_tr s);
  A_mark : a_nCongMarks s = count is_marked (a_tr s);
  A_dloss: a_nLossDecr s = count is_dloss (a_tr s);
  A_dmark: a_nMarkDecr s = count is_dmark (a_tr s);
  A_lost : a_nRetx s + a_nSkipped s + Z.of_nat (length (a_retxq s)) <= count is_lost (a_tr s);
  A_stop : stopping s = true -> a_segs s = []
}.

Record Running s : Prop := {
  R_nd   : NoDup (keys (a_segs s));
  R_keys : forall k, kmem k (a_segs s) = true -> (k < nf (a_tr s))%N;
  R_phase: nf (a_tr s) = b_next (a_b s) \/
           (hasFbi s = true /\ (last s < nf (a_tr s))%N) \/
           (hasFbi s = false /\ a_hasFailure s = true);
  R_fresh: forall k, In k (dl (a_tr s)) -> kmem k (a_segs s) = false;
  R_cov  : forall k, (k < nf (a_tr s))%N ->
             In k (dl (a_tr s)) \/ kmem k (a_segs s) = true \/
             (hasFbi s = true /\ (last s < k)%N) \/
             (hasFbi s = false /\ a_hasFailure s = true /\ (a_failedSeg s <= k)%N);
  R_last : forall k, hasFbi s = true -> kmem k (a_segs s) = true -> (k <= last s)%N;
  R_fbif : hasFbi s = true -> a_hasFailure s = false;
  R_q    : forall k i, kget k (a_segs s) = Some i -> si_state i = InRetxQueue -> In k (a_retxq s);
  R_cnt  : a_nInFlight s + count (inq s) (a_retxq s) <= Z.of_nat (length (a_segs s));
  R_fail : hasFbi s = false -> a_hasFailure s = true ->
             (a_failedSeg s < nf (a_tr s))%N /\ cause (a_tr s) (a_failedSeg s) (a_failReason s) /\
             (forall k, kmem k (a_segs s) = true -> (k < a_failedSeg s)%N);
  R_cr   : forall k, kmem k (a_segs s) = true ->
             cr k (a_tr s) = match kget k (a_retxCount s) with None => 0 | Some m => m end;
  R_time : forall k i, kget k (a_segs s) = Some i -> si_timeSent i <= a_now s
}.

Definition Live s : Prop := Always s /\ (stopping s = false -> Running s).

Lemma kmem_true k {A} (m : list (N * A)) : kmem k m = true <-> exists a, kget k m = Some a.
Proof. unfold kmem. destruct (kget k m); split; intros; eauto; [discriminate|]. destruct H; discriminate. Qed.
Lemma kmem_kset k k' {A} (a : A) m : kmem k (kset k' a m) = N.eqb k k' || kmem k m.
Proof. unfold kmem. rewrite kget_kset. destruct (N.eqb k k'); reflexivity. Qed.
Lemma kmem_kdel k k' {A} (m : list (N * A)) : kmem k (kdel k' m) = negb (N.eqb k k') && kmem k m.
Proof. unfold kmem. rewrite kget_kdel. destruct (N.eqb k k'); reflexivity. Qed.
Lemma kmem_filter (p : N -> bool) k {A} (m : list (N * A)) :
  kmem k (filter (fun e => p (fst e)) m) = p k && kmem k m.
Proof. unfold kmem. rewrite kget_filter. destruct (p k); reflexivity. Qed.
Lemma kmem_keys k {A} (m : list (N * A)) : kmem k m = true <-> In k (keys m).
Proof. rewrite kmem_true, kget_some_keys. reflexivity. Qed.

Lemma length_kset k {A} (a : A) m :
  length (kset k a m) = if kmem k m then length m else S (length m).
Proof.
  unfold kmem. induction m as [|[k1 a1] m IH]; cbn; [reflexivity|].
  destruct (N.eqb_spec k k1); cbn; [reflexivity|]. rewrite IH. now destruct (kget k m).
Qed.

Lemma length_kdel k {A} (m : list (N * A)) :
  NoDup (keys m) -> kmem k m = true -> length m = S (length (kdel k m)).
Proof.
  unfold kdel. induction m as [|[k1 a1] m IH]; cbn; [discriminate|].
  intros Hnd Hm. inversion Hnd as [|? ? Hni Hnd']; subst. unfold kmem in Hm. cbn in Hm.
  destruct (N.eqb_spec k k1) as [->|Hne]; cbn.
  - f_equal. assert (E : filter (fun e : N * A => negb (N.eqb k1 (fst e))) m = m).
    { clear -Hni. induction m as [|[k2 a2] m IH]; cbn; [reflexivity|].
      destruct (N.eqb_spec k1 k2) as [->|]; cbn.
      - exfalso. apply Hni. now left.
      - f_equal. apply IH. intros H. apply Hni. now right. }
    now rewrite E.
  - f_equal. apply IH; [exact Hnd'|]. unfold kmem. exact Hm.
Qed.

Lemma length_filter_split {A} (p : A -> bool) l :
  length l = (length (filter p l) + length (filter (fun x => negb (p x)) l))%nat.
Proof. induction l as [|x l IH]; cbn; [reflexivity|]. destruct (p x); cbn; lia. Qed.

Lemma count_kdel_le k {A} (m : list (N * A)) q :
  In k q -> kmem k m = true ->
  count (fun x => kmem x (kdel k m)) q + 1 <= count (fun x => kmem x m) q.
Proof.
  intros Hin Hm. induction q as [|x q IH]; [contradiction|].
  rewrite !count_cons, kmem_kdel. destruct Hin as [->|Hin].
  - rewrite N.eqb_refl, Hm. cbn.
    enough (count (fun x => kmem x (kdel k m)) q <= count (fun x => kmem x m) q) by lia.
    apply count_le. intros y _. rewrite kmem_kdel. now destruct (N.eqb y k), (kmem y m).
  - specialize (IH Hin). destruct (N.eqb x k), (kmem x m); cbn; lia.
Qed.

Lemma count_kdel_le' k {A} (m : list (N * A)) q :
  count (fun x => kmem x (kdel k m)) q <= count (fun x => kmem x m) q.
Proof. apply count_le. intros y _. rewrite kmem_kdel. now destruct (N.eqb y k), (kmem y m). Qed.

End WithPolicy.
End WithConfig.
