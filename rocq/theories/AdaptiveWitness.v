(** Concrete runs of the adaptive pipeline: used as non-vacuity examples and as
    counterexamples to claims that the code does not meet. *)
From Verif Require Import Base BaseFacts PipelineBase PipelineSpec FetcherModel AdaptiveModel.

(** a window that starts at [w], is halved (but not below 1) by a decrease and is otherwise
    constant; a constant retransmission timeout *)
Definition halving (w : Z) : policy Z unit :=
  Policy w tt (fun w => w) (fun _ _ w => w) (fun _ w => Z.max 1 (Z.div2 w)) (fun _ => 10)
         (fun _ _ x => x) (fun x => x).

(** default option values: 15 retries, react to congestion marks, conservative *)
Definition cfg : aconfig := AConfig 15 false false d_appnack.
Definition cfg0 : aconfig := AConfig 0 false false d_appnack.

Definition dat (c : list N) (f : fbi) : data := Data c f false false.
Definition marked (c : list N) (f : fbi) : data := Data c f true false.

(** three segments, loss of segment 1, out-of-order arrival *)
Definition run3 : list aevent :=
  [AeData 0 (dat [1; 2]%N FbiAbsent); AeTick 20; AeRto [];
   AeData 2 (dat [5]%N (FbiSegment 2)); AeData 1 (dat [3; 4]%N (FbiSegment 2))].
Definition chunks3 : list (list N) := [[1; 2]; [3; 4]; [5]]%N.

(** two loss events, the second for a segment sent after the first decrease *)
Definition run_loss : list aevent :=
  [AeNack 2 NrCongestion; AeData 0 (dat [] FbiAbsent); AeData 1 (dat [] FbiAbsent);
   AeData 2 (dat [] FbiAbsent); AeData 3 (dat [] FbiAbsent); AeNack 4 NrCongestion].

(** a fatal Nack for the first segment, nothing known about the final segment *)
Definition run_hang : list aevent := [AeNack 0 NrNoRoute].

(** retransmission timers expire, the window shrinks, then the lifetime of a segment that
    is already queued for retransmission expires *)
Definition run_drift : list aevent := [AeTick 100; AeRto [0; 1; 2; 3]%N; AeExpire 2].

(** the final segment becomes known while later segments wait for retransmission *)
Definition run_assert : list aevent :=
  [AeNack 2 NrCongestion; AeNack 3 NrCongestion; AeData 0 (dat [] (FbiSegment 1))].

Section Hang.
Context {W R : Type}.
Variable P : policy W R.
Variable C : aconfig.

(** nothing tracked: only a cancel can change anything *)
Lemma hang_forever es : forall s,
  a_segs s = [] -> b_stopping (a_b s) = false -> ~ In AeCancel es ->
  a_tr (fold_left (a_step P C) es s) = a_tr s.
Proof.
  induction es as [|e es IH]; intros s Hs Hst Hn; [reflexivity|].
  cbn [fold_left].
  assert (H : a_segs (a_step P C s e) = [] /\ b_stopping (a_b (a_step P C s e)) = false /\
              a_tr (a_step P C s e) = a_tr s).
  { unfold a_step. destruct (a_crashed s); [auto|].
    destruct e; try (unfold fromFace; rewrite Hs; cbn; auto).
    - destruct (a_timer s); [|auto]. unfold checkRto, isStopping. cbn [set_timer a_b a_segs].
      rewrite Hst, Hs. unfold visit_order. cbn [keys map].
      assert (E : nodup N.eq_dec (filter (fun k => if in_dec N.eq_dec k [] then true else false) order) = []).
      { clear. induction order as [|x o IHo]; cbn; [reflexivity|exact IHo]. }
      rewrite E. cbn. destruct (a_crashed s); cbn; auto.
    - cbn. auto.
    - exfalso. apply Hn. now left. }
  destruct H as (H1 & H2 & H3). rewrite IH; auto. intros H. apply Hn. now right.
Qed.
End Hang.
