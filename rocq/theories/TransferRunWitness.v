(** Concrete runs of both chunks programs for the examples of C81. *)
From Verif Require Import Base BaseFacts TlvModel PipelineBase PipelineSpec ProgressSpec FetcherModel PutchunksModel PutchunksSpec DiscoverModel
  AdaptiveModel AdaptiveProofs AdaptiveWindow AdaptiveWitness ProgressWitness AdaptiveLive
  FixedModel FixedSpec FixedEndSpec FixedEndWitness CatchunksModel CatchunksSpec CatchunksProofs ExitModel TransferWitness TransferRunSpec CatRunModel.
Local Open Scope Z_scope.

(** ** fixed pipeline: two slots, segment 1 is lost once *)
Definition arrives (i : nat) : xevent :=
  nth i [XeData 0 (dat [1; 2] (FbiSegment 2)); XeTimeout 1; XeData 0 (dat [5] (FbiSegment 2)); XeData 1 (dat [3; 4] (FbiSegment 2))]%N (XeTimeout 0).
Definition course (m : nat) : list pobs := x_history (x_run (XConfig 2 1 d_appnack) (xfirst m arrives)).
Lemma arrives_no_cancel i : arrives i <> XeCancel.
Proof. do 5 (destruct i as [|i]; [discriminate|]). discriminate. Qed.
Lemma course_end q : x_run (XConfig 2 1 d_appnack) (xfirst (4 + q) arrives) = x_run (XConfig 2 1 d_appnack) (xfirst 4 arrives).
Proof.
  induction q as [|q IH]; [reflexivity|]. rewrite Nat.add_succ_r, run_S, IH.
  assert (E : arrives (4 + q) = XeTimeout 0) by (destruct q; reflexivity). rewrite E. vm_compute. reflexivity.
Qed.
Lemma course_all (Q : list pobs -> Prop) : Q (course 0) -> Q (course 1) -> Q (course 2) -> Q (course 3) -> Q (course 4) -> forall m, Q (course m).
Proof.
  intros H0 H1 H2 H3 H4 m. destruct (Nat.le_gt_cases 4 m) as [H|H].
  - unfold course. replace m with (4 + (m - 4))%nat by lia. rewrite course_end. exact H4.
  - do 4 (destruct m as [|m]; [assumption|]). lia.
Qed.
Lemma course_fair m : awaited (course m) <> [] -> exists j, (m <= j)%nat /\ course (S j) <> course j.
Proof.
  assert (Hn : forall a b : list pobs, length a <> length b -> a <> b) by congruence.
  intros H. destruct (Nat.le_gt_cases 4 m) as [L|L].
  - exfalso. apply H. unfold course. replace m with (4 + (m - 4))%nat by lia. rewrite course_end. vm_compute. reflexivity.
  - exists m. split; [lia|]. apply Hn. do 4 (destruct m as [|m]; [vm_compute; discriminate|]). lia.
Qed.

(** ** adaptive: five events, then only time passes *)
Definition five : list aevent :=
  [AeData 0 (dat [1; 2]%N (FbiSegment 2)); AeTick 20; AeRto [];
   AeData 2 (dat [5]%N (FbiSegment 2)); AeData 1 (dat [3; 4]%N (FbiSegment 2))].
Definition goes (i : nat) : aevent := nth i five (ticking i).
Lemma goes_later i : (5 <= i)%nat -> goes i = ticking i.
Proof. intros H. unfold goes. apply nth_overflow. exact H. Qed.
Lemma goes_no_cancel i : goes i <> AeCancel.
Proof.
  do 5 (destruct i as [|i]; [discriminate|]). rewrite goes_later by lia. unfold ticking. destruct (Nat.even _); discriminate.
Qed.
Lemma goes_late m : elapsed (5 + m) goes + 60 >= elapsed (5 + m) ticking.
Proof.
  induction m as [|m IH]; [vm_compute; discriminate|]. rewrite Nat.add_succ_r, !elapsed_S, goes_later by lia. lia.
Qed.
Lemma goes_on : keeps_going goes.
Proof.
  intros m T. destruct (ticking_goes_on (5 + m)%nat (T + 60)) as (j & order & Hj & Ej & HT).
  exists j, order. split; [lia|]. split; [rewrite goes_later by lia; exact Ej|].
  pose proof (goes_late (j - 5)) as H. replace (5 + (j - 5))%nat with j in H by lia. lia.
Qed.
Section Stable.
Context {W R : Type}.
Variable P : policy W R.
Definition acourse (m : nat) : list pobs := a_history (a_run P tcfg (first m goes)).
Hypothesis Hstop : b_stopping (a_b (a_run P tcfg (first 5 goes))) = true.
Lemma acourse_end q : acourse (5 + q) = acourse 5.
Proof using Hstop.
  unfold acourse, a_history. f_equal.
  enough (H : b_stopping (a_b (a_run P tcfg (first (5 + q) goes))) = true /\
              a_tr (a_run P tcfg (first (5 + q) goes)) = a_tr (a_run P tcfg (first 5 goes))) by apply H.
  induction q as [|q [IH1 IH2]]; [auto|].
  assert (E : a_run P tcfg (first (5 + S q) goes) = a_step P tcfg (a_run P tcfg (first (5 + q) goes)) (goes (5 + q)%nat)).
  { rewrite Nat.add_succ_r. unfold first, a_run. rewrite seq_S, map_app, fold_left_app. reflexivity. }
  rewrite E, <- IH2. apply stopped_silent; [|exact IH1]. rewrite goes_later by lia. apply ticking_silent.
Qed.
Lemma acourse_all (Q : list pobs -> Prop) :
  Q (acourse 0) -> Q (acourse 1) -> Q (acourse 2) -> Q (acourse 3) -> Q (acourse 4) -> Q (acourse 5) -> forall m, Q (acourse m).
Proof using Hstop.
  intros H0 H1 H2 H3 H4 H5 m. destruct (Nat.le_gt_cases 5 m) as [H|H].
  - replace m with (5 + (m - 5))%nat by lia. now rewrite acourse_end.
  - do 5 (destruct m as [|m]; [assumption|]). lia.
Qed.
End Stable.

(** ** the network *)
Definition same_octets (a b : list N) : bool := if list_eq_dec N.eq_dec a b then true else false.
Definition looks_like (p : packet) (d : data) : bool :=
  same_octets (d_content d) (k_content p) && negb (d_appnack d) &&
  match k_fbi p, d_fbi d with
  | Some c, FbiSegment m => match segment_of c with Some n => N.eqb m n | None => false end
  | _, _ => false
  end.
Lemma looks_seen p d : looks_like p d = true -> seen_as p d.
Proof.
  unfold looks_like, seen_as, same_octets. intros H. apply andb_prop in H. destruct H as [H H3]. apply andb_prop in H. destruct H as [H1 H2].
  destruct (list_eq_dec N.eq_dec (d_content d) (k_content p)) as [E|]; [|discriminate]. split; [exact E|]. split; [now destruct (d_appnack d)|].
  destruct (k_fbi p) as [c|]; [|discriminate]. destruct (d_fbi d); try discriminate. destruct (segment_of c); [|discriminate]. apply N.eqb_eq in H3. now subst.
Qed.
Lemma forges_check digest sent cv a n des dh h (pick : N -> packet) :
  (forall p, In (DeData p) des -> In (RpData p) sent /\ matches_data digest (discovery_interest n) p = true) ->
  (forall vname, In (DoSuccess vname) dh -> forall k, In k [0; 1; 2]%N ->
     In (RpData (pick k)) sent /\ matches_data digest (segment_interest cv vname k (ca_fresh a)) (pick k) = true) ->
  forallb (fun ob => match ob with OGotData k d => N.ltb k 3 && looks_like (pick k) d | _ => true end) h = true ->
  forges_nothing digest sent cv a n des dh h.
Proof.
  intros H1 H2 H3. split; [exact H1|]. intros vname Hv seg d Hd. rewrite forallb_forall in H3. specialize (H3 _ Hd). cbn beta iota in H3.
  apply andb_prop in H3. destruct H3 as [G1 G2]. apply N.ltb_lt in G1. split.
  - eapply N.lt_trans; [exact G1|reflexivity].
  - exists (pick seg). destruct (H2 vname Hv seg); [cbn; lia|]. split; [assumption|]. split; [now apply looks_seen|assumption].
Qed.
