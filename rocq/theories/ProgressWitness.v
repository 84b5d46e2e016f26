(** Schedules for the examples and counterexamples about progress. *)
From Verif Require Import Base BaseFacts PipelineBase PipelineSpec ProgressSpec FetcherModel AdaptiveModel AdaptiveProofs.
From Verif Require Import AdaptiveWindow AdaptiveWitness.

(** 20 time units pass, then the timer is checked; forever *)
Definition ticking (i : nat) : aevent := if Nat.even i then AeTick 20 else AeRto [].

Lemma ticking_silent i : silent (ticking i).
Proof. unfold ticking. destruct (Nat.even i); exact I. Qed.

Lemma elapsed_S m f : elapsed (S m) f = elapsed m f + match f m with AeTick dt => Z.of_N dt | _ => 0 end.
Proof.
  unfold elapsed, first. rewrite seq_S, !map_app. cbn [map plus]. generalize (map (fun e => match e with AeTick dt => Z.of_N dt | _ => 0 end) (map f (seq 0 m))).
  induction l as [|x l IH]; cbn [app fold_right]; [lia|]. rewrite IH. lia.
Qed.
Lemma ticking_elapsed i : elapsed (2 * i) ticking = 20 * Z.of_nat i.
Proof.
  induction i as [|i IH]; [reflexivity|]. replace (2 * S i)%nat with (S (S (2 * i))) by lia.
  rewrite !elapsed_S, IH. unfold ticking. rewrite Nat.even_succ, <- Nat.negb_even. rewrite Nat.even_mul. cbn [Nat.even orb negb]. lia.
Qed.
Lemma ticking_goes_on : keeps_going ticking.
Proof.
  intros m T. set (i := (m + Z.to_nat T)%nat). exists (S (2 * i)), []. split; [unfold i; lia|]. split.
  - unfold ticking. rewrite Nat.even_succ, <- Nat.negb_even, Nat.even_mul. reflexivity.
  - rewrite elapsed_S, ticking_elapsed. unfold ticking at 1. rewrite Nat.even_mul. cbn [Nat.even orb]. unfold i. lia.
Qed.

Lemma halving_open w C es : 1 <= w -> open_window (p_floor (halving w) (p_initW (halving w))) (a_history (a_run (halving w) C es)).
Proof.
  intros Hw. split; [exact Hw|]. intros z Hz.
  destruct (win_inv (halving w) C (fun _ x => 1 <= x)) with (es := es) as [_ H]; [exact Hw|cbn; auto|cbn; intros; lia|].
  destruct (H z) as (k & x & _ & Hx & ->); [|exact Hx].
  unfold wins. apply in_flat_map. exists (OWindow z). split; [|now left]. unfold a_history in Hz. now apply in_rev in Hz.
Qed.

(** one segment of three has arrived, with the number of the final segment *)
Definition run_known : list aevent := [AeData 0 (dat [1]%N (FbiSegment 2))].
(** the network is silent from the beginning *)
Definition run_silent : list aevent := first 80 ticking.

Lemma honest_check n h :
  forallb (fun o => match o with
                    | OGotData k d => N.leb k n && match d_fbi d with FbiAbsent => true | FbiSegment m => N.eqb m n | FbiInvalid => false end
                    | _ => true
                    end) h = true -> honest n h.
Proof.
  rewrite forallb_forall. intros H k d Hin. specialize (H _ Hin). cbn in H. apply andb_prop in H. destruct H as [H1 H2].
  split; [now apply N.leb_le|]. destruct (d_fbi d) as [|m|]; [auto|right|discriminate]. apply N.eqb_eq in H2. congruence.
Qed.
Lemma nothrow_check h : existsb (fun o => match o with OThrow => true | _ => false end) h = false -> ~ In OThrow h.
Proof.
  intros H Hin. assert (E : existsb (fun o => match o with OThrow => true | _ => false end) h = true) by (apply existsb_exists; eauto).
  congruence.
Qed.
