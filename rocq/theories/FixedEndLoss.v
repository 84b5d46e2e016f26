(** The fixed pipeline ends if each segment is lost at most a bounded number of times,
    whatever the limit on retries: its Interests are bounded by the losses, and every sign of
    life of the network uses up some of them.  (As FixedEnd.v, with losses instead of the
    limit.) *)
From Verif Require Import Base BaseFacts PipelineBase PipelineSpec FetcherModel AdaptiveProofs FixedModel FixedSpec FixedProofs.
From Verif Require Import AdaptiveTheorems FixedInv4 FixedTheorems FixedEndSpec.

Section End.
Variable C : xconfig.
Notation r := (xc_maxRetries C).

Definition is_first (o : pobs) : bool := match o with OInterest _ false => true | _ => false end.
Definition is_throw (o : pobs) : bool := match o with OThrow => true | _ => false end.
Definition is_dlv (o : pobs) : bool := match o with ODeliver _ _ => true | _ => false end.
Definition is_loss (o : pobs) : bool := match o with OGotNack _ _ | OGotExpiry _ => true | _ => false end.
Definition is_got (o : pobs) : bool := match o with OGotData _ _ | OGotNack _ _ | OGotExpiry _ => true | _ => false end.

Fixpoint sum (w : slot -> Z) (l : list slot) : Z := match l with [] => 0 | x :: l' => w x + sum w l' end.

(** whether a retry timer is running, and whether an answer is awaited *)
Definition left_f (f : fetcher) : Z := match f_phase f with PhTimer => 1 | _ => 0 end.
Definition wait_f (f : fetcher) : Z := match f_phase f with PhInterest => 1 | _ => 0 end.
Definition left_x (x : slot) : Z := match x with Some (f, _) => left_f f | None => 0 end.
Definition wait_x (x : slot) : Z := match x with Some (f, _) => wait_f f | None => 0 end.

Definition cI (s : xstate) := count is_interest (x_tr s).
Definition cF (s : xstate) := count is_first (x_tr s).
Definition cD (s : xstate) := count is_dlv (x_tr s).
Definition cG (s : xstate) := count is_got (x_tr s).
Definition cL (s : xstate) := count is_loss (x_tr s).
Definition alpha (s : xstate) : Z := cI s + sum left_x (x_slots s) - cF s - cL s.
Definition beta (s : xstate) : Z := cF s - cD s.
Definition gamma (s : xstate) : Z := cG s + sum wait_x (x_slots s) - cI s.
Definition eps (s : xstate) : Z := cI s + cG s.

(** [le db de s s']: from [s] to [s'] *)
Definition le (da db dg de : Z) (s s' : xstate) : Prop :=
  alpha s' <= alpha s + da /\ beta s' <= beta s + db /\ gamma s' <= gamma s + dg /\ eps s + de <= eps s'.

Lemma le_refl s : le 0 0 0 0 s s.
Proof. unfold le. lia. Qed.
Lemma le_trans a b g e a' b' g' e' s1 s2 s3 :
  le a b g e s1 s2 -> le a' b' g' e' s2 s3 -> le (a + a') (b + b') (g + g') (e + e') s1 s3.
Proof. unfold le. lia. Qed.
Lemma le_weak a b g e a' b' g' e' s s' :
  le a b g e s s' -> a <= a' -> b <= b' -> g <= g' -> e' <= e -> le a' b' g' e' s s'.
Proof. unfold le. lia. Qed.

Lemma left_nonneg f : 0 <= left_f f.
Proof. unfold left_f. destruct (f_phase f); lia. Qed.
Lemma wait_nonneg f : 0 <= wait_f f.
Proof. unfold wait_f. destruct (f_phase f); lia. Qed.
Lemma left_x_nonneg x : 0 <= left_x x.
Proof. destruct x as [[f k]|]; cbn; [apply left_nonneg|lia]. Qed.
Lemma wait_x_nonneg x : 0 <= wait_x x.
Proof. destruct x as [[f k]|]; cbn; [apply wait_nonneg|lia]. Qed.
Lemma sum_nonneg w l : (forall x, 0 <= w x) -> 0 <= sum w l.
Proof. intros H. induction l as [|x l IH]; cbn; [lia|]. pose proof (H x). lia. Qed.
Lemma sum_upd w i v l :
  sum w (upd i v l) = sum w l + match nth_error l i with Some x => w v - w x | None => 0 end.
Proof.
  revert i. induction l as [|x l IH]; intros [|i]; cbn; [lia|lia|lia|].
  rewrite IH. destruct (nth_error l i); lia.
Qed.
Lemma sum_map w (g : slot -> slot) l : (forall x, w (g x) <= w x) -> sum w (map g l) <= sum w l.
Proof. intros H. induction l as [|x l IH]; cbn; [lia|]. specialize (H x). lia. Qed.

Lemma cancel_left f : left_f (f_cancel f) <= left_f f.
Proof.
  pose proof (left_nonneg f). unfold f_cancel. destruct (f_isRunning f) eqn:E; [|lia].
  unfold left_f at 1. cbn. lia.
Qed.
Lemma cancel_wait f : wait_f (f_cancel f) <= wait_f f.
Proof.
  pose proof (wait_nonneg f). unfold f_cancel. destruct (f_isRunning f) eqn:E; [|lia].
  unfold wait_f at 1. cbn. lia.
Qed.

Lemma count_ab p l (t : list pobs) :
  (forall k, p (OAbandon k) = false) -> Forall (fun o => is_ab o = true) l -> count p (l ++ t) = count p t.
Proof.
  intros Hp H. unfold count. rewrite filter_app.
  replace (filter p l) with (@nil pobs); [reflexivity|]. symmetry.
  induction H as [|o l Ho _ IH]; [reflexivity|]. cbn. destruct o; try discriminate. now rewrite Hp.
Qed.
Lemma count_cons (p : pobs -> bool) o t : count p (o :: t) = (if p o then 1 else 0) + count p t.
Proof. unfold count. cbn. destruct (p o); cbn [length]; lia. Qed.

Lemma le_slots b l hf cr o s :
  Forall (fun o => is_ab o = true) o ->
  sum left_x l <= sum left_x (x_slots s) -> sum wait_x l <= sum wait_x (x_slots s) ->
  le 0 0 0 0 s (XState b l hf cr (o ++ x_tr s)).
Proof.
  intros Ho Hl Hw. unfold le, alpha, beta, gamma, eps, cI, cF, cD, cG, cL. cbn [x_tr x_slots].
  rewrite !count_ab; auto. lia.
Qed.

Definition neutral (o : pobs) : bool := negb (is_interest o) && negb (is_dlv o) && negb (is_got o).
Lemma le_emit o s : neutral o = true -> le 0 0 0 0 s (x_emit o s).
Proof.
  intros H. unfold le, alpha, beta, gamma, eps, cI, cF, cD, cG, cL. cbn [x_tr x_slots x_emit].
  rewrite !count_cons. destruct o as [| | | |? [|]| | | | | | | | | | | | |]; try discriminate; cbn; lia.
Qed.
Lemma le_crash s : le 0 0 0 0 s (x_crash s).
Proof.
  unfold le, alpha, beta, gamma, eps, cI, cF, cD, cG, cL. cbn [x_tr x_slots x_crash].
  rewrite !count_cons. cbn. lia.
Qed.

Lemma ab_forall x : Forall (fun o => is_ab o = true) (abandoned x).
Proof. unfold abandoned. destruct x as [[f k]|]; [destruct (f_isRunning f)|]; repeat constructor. Qed.
Lemma ab_flat (g : slot -> list pobs) l :
  (forall x, Forall (fun o => is_ab o = true) (g x)) -> Forall (fun o => is_ab o = true) (rev (flat_map g l)).
Proof.
  intros H. apply Forall_rev. induction l as [|x l IH]; cbn; [constructor|]. apply Forall_app; auto.
Qed.

Lemma le_cancel s : le 0 0 0 0 s (x_cancel s).
Proof.
  unfold x_cancel. destruct (b_stopping (x_b s)); [apply le_refl|].
  apply le_slots; [apply ab_flat, ab_forall| |]; cbn; apply sum_nonneg; [apply left_x_nonneg|apply wait_x_nonneg].
Qed.
Lemma le_onFailure rs s : le 0 0 0 0 s (x_onFailure rs s).
Proof.
  unfold x_onFailure. destruct (b_stopping (x_b s)); [apply le_refl|].
  eapply le_weak; [eapply le_trans; [apply le_cancel|apply le_emit; reflexivity]| | | |]; lia.
Qed.

Lemma le_fetchNext i s : le 0 1 0 0 s (fst (fetchNextSegment C i s)).
Proof.
  unfold fetchNextSegment. destruct (b_stopping (x_b s)); [cbn [fst]; eapply le_weak; [apply le_refl| | | |]; lia|].
  destruct (x_hasFailure s); [cbn [fst]; eapply le_weak; [apply le_onFailure| | | |]; lia|].
  unfold b_getNext. cbn [fst snd].
  destruct (_ && _); cbn [fst]; [unfold le, alpha, beta, gamma, eps, cI, cF, cD, cG, cL; cbn; lia|].
  set (s2 := match nth_error _ _ with Some _ => _ | None => _ end).
  assert (E : x_slots s2 = x_slots s /\ cI s2 = 1 + cI s /\ cF s2 = 1 + cF s /\ cD s2 = cD s /\ cG s2 = cG s /\ cL s2 = cL s).
  { unfold s2, cI, cF, cD, cG, cL. cbn [x_emit x_slots x_setB].
    destruct (nth_error (x_slots s) i) as [[[f k]|]|]; [destruct (f_isRunning f)| |];
      cbn [x_emit x_slots x_setB x_tr]; rewrite ?count_cons; cbn; repeat apply conj; try reflexivity; lia. }
  destruct E as (E1 & E2 & E3 & E4 & E5 & E6).
  unfold le, alpha, beta, gamma, eps.
  change (cI (x_setSlots (upd i (Some (fst f_start, b_next (x_b s))) (x_slots s2)) s2)) with (cI s2).
  change (cF (x_setSlots (upd i (Some (fst f_start, b_next (x_b s))) (x_slots s2)) s2)) with (cF s2).
  change (cD (x_setSlots (upd i (Some (fst f_start, b_next (x_b s))) (x_slots s2)) s2)) with (cD s2).
  change (cG (x_setSlots (upd i (Some (fst f_start, b_next (x_b s))) (x_slots s2)) s2)) with (cG s2).
  change (cL (x_setSlots (upd i (Some (fst f_start, b_next (x_b s))) (x_slots s2)) s2)) with (cL s2).
  unfold x_setSlots. cbn [x_slots]. rewrite E1, E2, E3, E4, E5, E6, !sum_upd.
  change (left_x (Some (fst f_start, b_next (x_b s)))) with 0.
  change (wait_x (Some (fst f_start, b_next (x_b s)))) with 1.
  destruct (nth_error (x_slots s) i) as [x|]; [|lia].
  pose proof (left_x_nonneg x). pose proof (wait_x_nonneg x). lia.
Qed.

Lemma le_doRun k : forall i s, le 0 (Z.of_nat k) 0 0 s (x_doRun C k i s).
Proof.
  induction k as [|k IH]; intros i s; cbn [x_doRun]; [eapply le_weak; [apply le_refl| | | |]; lia|].
  pose proof (le_fetchNext i s) as H. destruct (fetchNextSegment C i s) as [s' [|]]; cbn [fst] in H.
  - eapply le_weak; [eapply le_trans; [exact H|apply IH]| | | |]; lia.
  - eapply le_weak; [exact H| | | |]; lia.
Qed.

Lemma le_advance i s : le 0 1 0 0 s (x_advance C i s).
Proof.
  unfold x_advance. destruct (b_allReceived (x_b s)); [|apply le_fetchNext].
  eapply le_weak; [apply le_emit; reflexivity| | | |]; lia.
Qed.

Lemma learn_sum n l :
  sum left_x (fst (fst (x_learn n l))) <= sum left_x l /\
  sum wait_x (fst (fst (x_learn n l))) <= sum wait_x l /\
  Forall (fun o => is_ab o = true) (snd (fst (x_learn n l))).
Proof.
  induction l as [|[[f k]|] l IH]; cbn [x_learn]; [cbn; repeat split; try lia; constructor| |].
  - destruct (n <? k)%N.
    + destruct (x_learn n l) as [[l' o'] e']. cbn [fst snd] in *. destruct IH as (IH1 & IH2 & IH3).
      pose proof (cancel_left f). pose proof (cancel_wait f). cbn. repeat split; try lia.
      change (if f_isRunning f then [OAbandon k] else []) with (abandoned (Some (f, k))).
      apply Forall_app. split; [apply ab_forall|exact IH3].
    + destruct (f_hasError f); [cbn; repeat split; try lia; constructor|].
      destruct (x_learn n l) as [[l' o'] e']. cbn [fst snd] in *. destruct IH as (IH1 & IH2 & IH3).
      cbn. repeat split; try lia. exact IH3.
  - destruct (x_learn n l) as [[l' o'] e']. cbn [fst snd] in *. destruct IH as (IH1 & IH2 & IH3).
    cbn. repeat split; try lia. exact IH3.
Qed.

Lemma le_handleData i seg d s : le 0 0 0 0 s (x_handleData C i seg d s).
Proof.
  unfold x_handleData. destruct (b_stopping (x_b s)); [apply le_refl|].
  set (s1 := x_emit (ODeliver seg d) _).
  assert (E : le 0 (-1) 0 0 s s1).
  { unfold le, alpha, beta, gamma, eps, cI, cF, cD, cG, cL, s1. cbn [x_tr x_slots x_emit x_setB].
    rewrite !count_cons. cbn. lia. }
  assert (Hadv : forall s2, le 0 0 0 0 s1 s2 -> le 0 0 0 0 s (x_advance C i s2)).
  { intros s2 H2. eapply le_weak; [eapply le_trans; [exact E|eapply le_trans; [exact H2|apply le_advance]]| | | |]; lia. }
  assert (Hcr : le 0 0 0 0 s (x_crash s1)).
  { eapply le_weak; [eapply le_trans; [exact E|apply le_crash]| | | |]; lia. }
  destruct (xc_cbThrows C d); [exact Hcr|].
  destruct (b_hasFbi (x_b s1)); [apply Hadv, le_refl|].
  destruct (d_fbi d) as [|n|]; [apply Hadv, le_refl| |exact Hcr].
  pose proof (learn_sum n (x_slots s1)) as (H1 & H2 & H3).
  destruct (x_learn n (x_slots s1)) as [[l o] e]. cbn [fst snd] in *.
  assert (E2 : le 0 0 0 0 s1 (XState (b_setFbi n (x_b s1)) l (x_hasFailure s1) (x_crashed s1) (rev o ++ x_tr s1))).
  { apply le_slots; [now apply Forall_rev|exact H1|exact H2]. }
  destruct e as [k|].
  - eapply le_weak; [eapply le_trans; [exact E|eapply le_trans; [exact E2|apply le_onFailure]]| | | |]; lia.
  - now apply Hadv.
Qed.

Lemma le_handleFail seg s : le 0 0 0 0 s (x_handleFail seg s).
Proof.
  unfold x_handleFail. destruct (b_stopping (x_b s)); [apply le_refl|].
  destruct (_ && _); [apply le_onFailure|].
  destruct (b_hasFbi (x_b s)); [apply le_refl|].
  set (s1 := XState _ _ _ _ _).
  assert (E : le 0 0 0 0 s s1).
  { apply le_slots.
    - apply ab_flat. intros [[f k]|]; unfold x_abandonAfter; [destruct (_ <? _)%N; [apply ab_forall|]|]; constructor.
    - apply sum_map. intros [[f k]|]; cbn; [|lia]. destruct (_ <? _)%N; cbn; [apply cancel_left|lia].
    - apply sum_map. intros [[f k]|]; cbn; [|lia]. destruct (_ <? _)%N; cbn; [apply cancel_wait|lia]. }
  destruct (existsb _ _).
  - unfold x_setFailure. unfold le, alpha, beta, gamma, eps, cI, cF, cD, cG, cL in *. cbn [x_tr x_slots] in *. lia.
  - eapply le_weak; [eapply le_trans; [exact E|apply le_onFailure]| | | |]; lia.
Qed.

(** * One event *)
Definition oi (o : fobs) : Z := match o with FoInterest => 1 | _ => 0 end.
Definition og (o : fobs) : Z := match o with FoGotData | FoGotNack _ | FoGotTimeout => 1 | _ => 0 end.
Definition ol (o : fobs) : Z := match o with FoGotNack _ | FoGotTimeout => 1 | _ => 0 end.
Fixpoint total (w : fobs -> Z) (l : list fobs) : Z := match l with [] => 0 | x :: l' => w x + total w l' end.

Lemma le_react i seg d s o : le (oi o - ol o) 0 (og o - oi o) (oi o + og o) s (x_react C i seg d s o).
Proof.
  destruct o; cbn [x_react oi og ol];
    try (eapply le_weak; [first [apply le_emit; reflexivity | apply le_handleData | apply le_handleFail | apply le_refl]| | | |]; lia);
    unfold le, alpha, beta, gamma, eps, cI, cF, cD, cG, cL; cbn [x_tr x_slots x_emit]; rewrite !count_cons; cbn; lia.
Qed.

Lemma le_reacts i seg d os : forall s,
  le (total oi os - total ol os) 0 (total og os - total oi os) (total oi os + total og os) s (fold_left (x_react C i seg d) os s).
Proof.
  induction os as [|o os IH]; intros s; cbn [fold_left total].
  - eapply le_weak; [apply le_refl| | | |]; lia.
  - eapply le_weak; [eapply le_trans; [apply le_react|apply IH]| | | |]; lia.
Qed.

Lemma fstep_pays f e : e <> FeCancel ->
  let '(f', os) := f_step (x_fconfig C) f e in
  left_f f' + total oi os <= left_f f + total ol os /\ wait_f f' + total og os - total oi os <= wait_f f /\
  (os = [] /\ f' = f \/ 1 <= total oi os + total og os).
Proof.
  intros He. destruct f as [nn nt nc st er ph].
  destruct e as [|rr| | |]; [| | | |congruence]; destruct ph;
    unfold f_step; cbn [f_phase]; try (cbn [total]; repeat apply conj; [lia|lia|left; auto]).
  - unfold f_handleData, f_isRunning, f_setPhase, prepend. cbn.
    destruct st, er; cbn; unfold left_f, wait_f, f_isRunning; cbn; lia.
  - unfold f_handleNack, f_isRunning, f_setPhase, prepend. cbn [f_stopped f_hasError].
    destruct st, er; cbn [negb andb]; try (cbn; unfold left_f, wait_f, f_isRunning; cbn; lia).
    unfold x_fconfig. cbn [fc_maxNack fc_maxTimeout]. unfold MAX_RETRIES_INFINITE.
    destruct (Z.eqb r (-1)); cbn [f_nNacks f_nTimeouts f_nCong f_stopped f_hasError f_phase]; destruct (_ || _).
    1,3: destruct rr; unfold f_congestion; cbn [f_nCong]; try destruct (_ <? _); unfold left_f, wait_f, f_isRunning; cbn; lia.
    1,2: unfold left_f, wait_f, f_isRunning; cbn; lia.
  - unfold f_handleTimeout, f_isRunning, f_setPhase, prepend. cbn [f_stopped f_hasError].
    destruct st, er; cbn [negb andb]; try (cbn; unfold left_f, wait_f, f_isRunning; cbn; lia).
    unfold x_fconfig. cbn [fc_maxNack fc_maxTimeout]. unfold MAX_RETRIES_INFINITE.
    destruct (Z.eqb r (-1)); cbn [f_nNacks f_nTimeouts f_nCong f_stopped f_hasError f_phase]; destruct (_ || _); unfold left_f, wait_f, f_isRunning; cbn; lia.
  - unfold left_f, wait_f, f_isRunning, f_expressInterest, f_setPhase; cbn. destruct st, er; cbn; lia.
Qed.

Lemma le_slotEvent i d e s : e <> FeCancel ->
  le 0 0 0 0 s (x_slotEvent C i d e s) /\
  (x_tr (x_slotEvent C i d e s) = x_tr s \/ le 0 0 0 1 s (x_slotEvent C i d e s)).
Proof.
  intros He. unfold x_slotEvent.
  destruct (nth_error (x_slots s) i) as [[[f seg]|]|] eqn:Hi; [|split; [apply le_refl|now left]..].
  pose proof (fstep_pays f e He) as H. destruct (f_step (x_fconfig C) f e) as [f' os].
  destruct H as (H1 & H2 & H3).
  set (s1 := x_setSlots _ s).
  assert (E : le (total ol os - total oi os) 0 (total oi os - total og os) 0 s s1).
  { unfold le, alpha, beta, gamma, eps, cI, cF, cD, cG, cL, s1. cbn [x_tr x_slots x_setSlots].
    rewrite !sum_upd, Hi. cbn [left_x wait_x]. lia. }
  pose proof (le_trans _ _ _ _ _ _ _ _ _ _ _ E (le_reacts i seg d os s1)) as HL.
  assert (0 <= total oi os) by (clear; induction os as [|o os IH]; cbn; [lia|destruct o; cbn; lia]).
  assert (0 <= total og os) by (clear; induction os as [|o os IH]; cbn; [lia|destruct o; cbn; lia]).
  split; [eapply le_weak; [exact HL| | | |]; lia|].
  destruct H3 as [[-> ->]|H3]; [left; reflexivity|right; eapply le_weak; [exact HL| | | |]; lia].
Qed.

Lemma le_step s e :
  le 0 0 0 0 s (x_step C s e) /\
  (x_tr (x_step C s e) = x_tr s \/ le 0 0 0 1 s (x_step C s e) \/ In OGotCancel (x_tr (x_step C s e))).
Proof.
  unfold x_step. destruct (x_crashed s); [split; [apply le_refl|now left]|].
  assert (H : forall i d fe, fe <> FeCancel -> le 0 0 0 0 s (x_slotEvent C i d fe s) /\
    (x_tr (x_slotEvent C i d fe s) = x_tr s \/ le 0 0 0 1 s (x_slotEvent C i d fe s) \/
     In OGotCancel (x_tr (x_slotEvent C i d fe s)))).
  { intros i d fe Hf. destruct (le_slotEvent i d fe s Hf) as [H1 [H2|H2]]; auto. }
  destruct e; try (apply H; discriminate).
  split.
  - eapply le_weak; [eapply le_trans; [|apply le_cancel]; apply le_emit; reflexivity| | | |]; lia.
  - right. right. unfold x_cancel. destruct (b_stopping _); [left; reflexivity|].
    cbn [x_tr]. apply in_or_app. right. left. reflexivity.
Qed.

Lemma le_run es : le 0 (Z.of_nat (xc_size C)) 0 0 (x_init C) (x_run C es).
Proof.
  unfold x_run. assert (H : forall es s, le 0 0 0 0 s (fold_left (x_step C) es s)).
  { induction es0 as [|e es0 IH]; intros s; cbn [fold_left]; [apply le_refl|].
    eapply le_weak; [eapply le_trans; [apply (proj1 (le_step s e))|apply IH]| | | |]; lia. }
  eapply le_weak; [eapply le_trans; [apply le_doRun|apply H]| | | |]; lia.
Qed.

Lemma run_bounds es : let s := x_run C es in
  cI s <= cF s + cL s /\ cF s <= Z.of_nat (xc_size C) + cD s /\ cG s <= cI s.
Proof.
  cbv zeta. destruct (le_run es) as (H1 & H2 & H3 & _).
  assert (E0 : forall k w, (w None = 0) -> sum w (repeat None k) = 0).
  { intros k w Hw. induction k as [|k IH]; cbn; [reflexivity|]. rewrite Hw, IH. reflexivity. }
  assert (alpha (x_init C) = 0 /\ beta (x_init C) = 0 /\ gamma (x_init C) = 0) as (A & B & G).
  { unfold alpha, beta, gamma, cI, cF, cD, cG, cL, x_init. cbn [x_tr x_slots]. rewrite !E0 by reflexivity.
    unfold count. cbn. lia. }
  rewrite A in H1. rewrite B in H2. rewrite G in H3. unfold alpha in H1. unfold beta in H2. unfold gamma in H3.
  pose proof (sum_nonneg left_x (x_slots (x_run C es)) left_x_nonneg).
  pose proof (sum_nonneg wait_x (x_slots (x_run C es)) wait_x_nonneg). lia.
Qed.

Lemma count_rev (p : pobs -> bool) l : count p (rev l) = count p l.
Proof.
  unfold count. induction l as [|o l IH]; [reflexivity|]. cbn [rev]. rewrite filter_app, app_length. cbn.
  destruct (p o); cbn; lia.
Qed.
Lemma cD_deliveries s : cD s = Z.of_nat (length (deliveries (x_history s))).
Proof.
  unfold cD, x_history. rewrite <- count_rev. unfold count, deliveries. f_equal.
  induction (rev (x_tr s)) as [|o l IH]; [reflexivity|]. cbn. destruct o; cbn; rewrite ?IH; reflexivity.
Qed.

(** losses, segment by segment *)
Definition lk (k : N) (t : list pobs) : Z := count (nack_for k) t + count (expiry_for k) t.
Fixpoint lsum (n : nat) (t : list pobs) : Z := match n with O => 0 | S n => lsum n t + lk (N.of_nat n) t end.
Lemma lsum_cons n o t : lsum n (o :: t) = lsum n t + lsum n [o].
Proof.
  induction n as [|n IH]; cbn [lsum]; [reflexivity|]. rewrite IH. unfold lk. rewrite !count_cons. unfold count. cbn [filter length]. lia.
Qed.
Lemma lk_one k o : lk k [o] = match o with OGotNack j _ | OGotExpiry j => if N.eqb j k then 1 else 0 | _ => 0 end.
Proof. unfold lk, count. destruct o; cbn; try reflexivity; destruct (N.eqb seg k); reflexivity. Qed.
Lemma lsum_one n o k : match o with OGotNack j _ | OGotExpiry j => j = k | _ => False end ->
  lsum n [o] = if N.ltb k (N.of_nat n) then 1 else 0.
Proof.
  intros Ho. induction n as [|n IH]; [cbn [lsum]; destruct (N.ltb_spec k (N.of_nat 0)); [lia|reflexivity]|].
  cbn [lsum]. rewrite IH, lk_one.
  destruct o; try contradiction; subst; destruct (N.eqb_spec k (N.of_nat n)), (N.ltb_spec k (N.of_nat n)), (N.ltb_spec k (N.of_nat (S n))); lia.
Qed.
Lemma lsum_mono n t : lsum n t <= lsum (S n) t.
Proof. cbn [lsum]. unfold lk, count. lia. Qed.
Lemma fl_nf t : xtr_ok C t -> forall k, In k (fl t) -> (k < nf t)%N.
Proof.
  induction t as [|o t IH]; [intros _ k []|]. intros [HG Hok] k Hk. specialize (IH Hok).
  assert (Hsub : forall j, In k (remove N.eq_dec j (fl t)) -> (k < nf t)%N) by (intros j Hj; apply in_remove in Hj; apply IH, Hj).
  destruct o as [| | | |seg [|]| | | | | | | | | | | | |]; cbn [fl nf] in *; try (now apply IH); try (now apply (Hsub seg)).
  - destruct HG as (_ & _ & _ & _ & H1 & _). destruct Hk as [<-|Hk]; [exact H1|]. first [now apply IH|now apply (Hsub seg)].
  - destruct HG as (_ & _ & _ & _ & H1). destruct Hk as [<-|Hk]; [lia|].
    assert ((k < nf t)%N) by (first [now apply IH|now apply (Hsub seg)]). lia.
Qed.
Lemma losses_sum t : xtr_ok C t -> count is_loss t = lsum (N.to_nat (nf t)) t.
Proof.
  induction t as [|o t IH]; [reflexivity|]. intros [HG Hok]. specialize (IH Hok). rewrite count_cons.
  assert (H0 : forall n, is_loss o = false -> lsum n [o] = 0).
  { intros n H. induction n as [|n IHn]; cbn [lsum]; [reflexivity|]. rewrite IHn, lk_one. destruct o; try reflexivity; discriminate. }
  destruct (is_loss o) eqn:E.
  - assert (En : nf (o :: t) = nf t) by (destruct o; try discriminate; reflexivity). rewrite En, lsum_cons, IH.
    destruct o; try discriminate; cbn [XG] in HG; apply (fl_nf _ Hok) in HG; match goal with |- context [lsum ?n [?x]] => rewrite (lsum_one n x seg eq_refl) end;
      destruct (N.ltb_spec seg (N.of_nat (N.to_nat (nf t)))); lia.
  - rewrite lsum_cons, H0, IH by reflexivity. 
    destruct o as [| | | |seg [|]| | | | | | | | | | | | |]; cbn [nf]; try lia.
    rewrite N2Nat.inj_succ. cbn [lsum]. rewrite N2Nat.id.
    enough (lk (nf t) t = 0) by lia.
    assert (HZ : forall t', (exists l, t = l ++ t') -> lk (nf t) t' = 0).
    { clear - Hok. induction t' as [|o t' IH']; [reflexivity|]. intros [l El].
      assert (Hl : exists l', t = l' ++ t') by (exists (l ++ [o]); rewrite <- app_assoc; exact El). specialize (IH' Hl).
      assert (E : lk (nf t) (o :: t') = lk (nf t) [o] + lk (nf t) t') by (unfold lk; rewrite !count_cons; unfold count; cbn [filter length]; lia).
      rewrite E, IH', lk_one. 
      assert (HG : XG C t' o /\ xtr_ok C t').
      { rewrite El in Hok. clear - Hok. induction l as [|x l IH]; [exact Hok|]. apply IH, Hok. }
      assert (Hmon : (nf t' <= nf t)%N).
      { rewrite El. clear. induction l as [|x l IH]; cbn [app]; [destruct o as [| | | |seg [|]| | | | | | | | | | | | |]; cbn [nf]; lia|].
        destruct x as [| | | |seg [|]| | | | | | | | | | | | |]; cbn [nf]; lia. }
      destruct HG as [HG Hok']. destruct o; try reflexivity; cbn [XG] in HG; apply (fl_nf _ Hok') in HG;
        destruct (N.eqb_spec seg (nf t)); lia. }
    apply HZ. now exists [].
Qed.
Lemma lsum_le n t b : (forall k, lk k t <= b) -> lsum n t <= Z.of_nat n * b.
Proof. intros H. induction n as [|n IH]; cbn [lsum]; [lia|]. specialize (H (N.of_nat n)). lia. Qed.
Lemma cF_nf t : count is_first t = Z.of_N (nf t).
Proof.
  induction t as [|o t IH]; [reflexivity|]. rewrite count_cons, IH.
  destruct o as [| | | |seg [|]| | | | | | | | | | | | |]; cbn [nf is_first]; lia.
Qed.

(** * No run goes on forever *)
Section Forever.
Hypothesis Hsize : (0 < xc_size C)%nat.
Variable n : N.
Variable f : nat -> xevent.
Let st (m : nat) : xstate := x_run C (xfirst m f).
Let h (m : nat) : list pobs := x_history (st m).
Hypothesis Hfin : forall m k d, In (OGotData k d) (h m) -> (k <= n)%N.
Variable b : Z.
Hypothesis Hnack : forall m k, count (nack_for k) (h m) <= b.
Hypothesis Hexp : forall m k, count (expiry_for k) (h m) <= b.

Lemma st_S m : st (S m) = x_step C (st m) (f m).
Proof. unfold st, xfirst, x_run. rewrite seq_S, map_app, fold_left_app. reflexivity. Qed.

Lemma deliveries_few m : (length (deliveries (h m)) <= S (N.to_nat n))%nat.
Proof.
  rewrite <- (map_length fst). rewrite <- (length_upto (S (N.to_nat n))).
  apply NoDup_incl_length; [apply fixed_once; assumption|].
  intros k Hk. apply in_upto. apply in_map_iff in Hk. destruct Hk as ([k' d] & <- & Hk). cbn [fst].
  unfold deliveries in Hk. apply in_flat_map in Hk. destruct Hk as (o & Ho & Hk).
  destruct o; cbn in Hk; try contradiction. destruct Hk as [[= <- <-]|[]].
  apply in_split in Ho. destruct Ho as (h1 & h2 & E).
  destruct (fixed_delivery_genuine C (xfirst m f) Hsize h1 seg d0 h2 E) as [Hg _].
  assert ((seg <= n)%N) by (apply (Hfin m seg d0); rewrite E; apply in_or_app; now left). lia.
Qed.

Lemma eps_bounded m : eps (st m) <= 2 * ((2 * b + 1) * (Z.of_nat (xc_size C) + Z.of_N n + 1)).
Proof.
  destruct (run_bounds (xfirst m f)) as (H1 & H2 & H3). rewrite cD_deliveries in H2.
  pose proof (deliveries_few m) as Hd. fold (st m) in *. fold (h m) in H2.
  destruct (run_ok C (xfirst m f) Hsize) as [Hok _]. fold (st m) in Hok.
  assert (HL : cL (st m) <= cF (st m) * (2 * b)).
  { unfold cL, cF. rewrite (losses_sum _ Hok), cF_nf.
    pose proof (lsum_le (N.to_nat (nf (x_tr (st m)))) (x_tr (st m)) (2 * b)) as H.
    replace (Z.of_N (nf (x_tr (st m)))) with (Z.of_nat (N.to_nat (nf (x_tr (st m))))) by lia. apply H.
    intros k. unfold lk. specialize (Hnack m k). specialize (Hexp m k). unfold h, x_history in Hnack, Hexp.
    rewrite count_rev in Hnack, Hexp. lia. }
  assert (Hb : 0 <= b) by (specialize (Hnack 0%nat 0%N); unfold count in Hnack; lia).
  unfold eps. nia.
Qed.

Theorem always_ends :
  (forall m, awaited (h m) <> [] -> exists j, (m <= j)%nat /\ h (S j) <> h j) ->
  exists m, existsb is_over (h m) = true \/ In OThrow (h m).
Proof.
  intros Hfair.
  assert (Hgrow : forall v : nat, (exists m, existsb is_over (h m) = true \/ In OThrow (h m)) \/
                                  exists m, Z.of_nat v <= eps (st m)).
  { induction v as [|v [IH|[m Hm]]]; [right; exists 0%nat|now left|].
    - unfold eps, cI, cG, count. lia.
    - destruct (existsb is_over (h m)) eqn:Ho; [left; eauto|].
      destruct (existsb is_throw (h m)) eqn:Ht.
      { left. exists m. right. apply existsb_exists in Ht. destruct Ht as (o & Hi & Ht). now destruct o. }
      assert (Ht' : ~ In OThrow (h m)).
      { intros Hi. apply not_true_iff_false in Ht. apply Ht, existsb_exists. eauto. }
      destruct (Hfair m (fixed_progress C (xfirst m f) Hsize Ho Ht')) as (j & Hj & Hne).
      assert (Hmono : forall q, eps (st m) <= eps (st (m + q)%nat)).
      { induction q as [|q IHq]; [rewrite Nat.add_0_r; lia|]. rewrite Nat.add_succ_r, st_S.
        destruct (proj1 (le_step (st (m + q)) (f (m + q)%nat))) as (_ & _ & _ & He). lia. }
      specialize (Hmono (j - m)%nat). replace (m + (j - m))%nat with j in Hmono by lia.
      destruct (proj2 (le_step (st j) (f j))) as [E|[(_ & _ & _ & E)|E]]; rewrite <- st_S in E.
      + exfalso. apply Hne. unfold h, x_history. now rewrite E.
      + right. exists (S j). lia.
      + left. exists (S j). left. apply existsb_exists. exists OGotCancel. split; [|reflexivity].
        unfold h, x_history. now apply -> in_rev. }
  destruct (Hgrow (Z.to_nat (1 + 2 * ((2 * b + 1) * (Z.of_nat (xc_size C) + Z.of_N n + 1))))) as [H|[m Hm]]; [exact H|].
  pose proof (eps_bounded m). lia.
Qed.
End Forever.
End End.
