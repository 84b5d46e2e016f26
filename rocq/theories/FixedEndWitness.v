(** A concrete run for C52. *)
From Verif Require Import Base PipelineBase PipelineSpec FixedModel FixedSpec FixedEndSpec AdaptiveWitness.

Definition fading (i : nat) : xevent :=
  match i with
  | O => XeData 0 (dat [7]%N FbiAbsent)
  | S i' => XeTimeout (Nat.modulo i' 2)
  end.
Definition fcfg : xconfig := XConfig 2 1 d_appnack.
Definition fh (m : nat) : list pobs := x_history (x_run fcfg (xfirst m fading)).

Lemma idle s i : x_slots s = [] -> x_step fcfg s (XeTimeout i) = s.
Proof. intros H. unfold x_step, x_slotEvent. rewrite H. destruct (x_crashed s), i; reflexivity. Qed.
Lemma run_S C f m : x_run C (xfirst (S m) f) = x_step C (x_run C (xfirst m f)) (f m).
Proof. unfold xfirst, x_run. rewrite seq_S, map_app, fold_left_app. reflexivity. Qed.
Lemma fading_done : x_slots (x_run fcfg (xfirst 5 fading)) = [].
Proof. vm_compute. reflexivity. Qed.
Lemma fading_end q : x_run fcfg (xfirst (5 + q) fading) = x_run fcfg (xfirst 5 fading).
Proof.
  pose proof fading_done as H. revert H. generalize 5%nat as p. intros p H.
  induction q as [|q IH]; [now rewrite Nat.add_0_r|].
  rewrite Nat.add_succ_r, run_S, IH. destruct (p + q)%nat as [|i] eqn:E; [|now apply idle].
  exfalso. destruct p; [discriminate H|discriminate E].
Qed.
Lemma fading_cases m : (m <= 5)%nat \/ fh m = fh 5.
Proof.
  destruct (Nat.le_gt_cases m 5) as [H|H]; [now left|right].
  unfold fh. replace m with (5 + (m - 5))%nat by lia. now rewrite fading_end.
Qed.
Definition low (o : pobs) : bool := match o with OGotData k _ => (k =? 0)%N | _ => true end.
Lemma fading_low m : forallb low (fh m) = true.
Proof.
  destruct (fading_cases m) as [H| ->]; [|vm_compute; reflexivity].
  do 6 (destruct m as [|m]; [vm_compute; reflexivity|]). lia.
Qed.
Lemma fading_finite m k d : In (OGotData k d) (fh m) -> (k <= 0)%N.
Proof.
  intros H. pose proof (fading_low m) as F. rewrite forallb_forall in F. specialize (F _ H). cbn in F. lia.
Qed.
Lemma fading_fair m : awaited (fh m) <> [] -> exists j, (m <= j)%nat /\ fh (S j) <> fh j.
Proof.
  assert (Hn : forall a b : list pobs, length a <> length b -> a <> b) by congruence.
  intros H. destruct (fading_cases m) as [L|E]; [|rewrite E in H; vm_compute in H; congruence].
  destruct m as [|[|[|[|[|[|m]]]]]]; [exists 0%nat|exists 1%nat|exists 2%nat|exists 3%nat|exists 4%nat|vm_compute in H; congruence|lia];
    (split; [lia|apply Hn; vm_compute; discriminate]).
Qed.
