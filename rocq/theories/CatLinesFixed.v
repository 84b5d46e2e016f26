(** The verbose messages of the fixed pipeline against its history. *)
From Verif Require Import Base BaseFacts PipelineBase PipelineSpec FetcherModel FixedModel Double DumpModel DecimalModel
  CatMsgModel CatLinesSpec CatLines.

Section Fixed.
Variable C : xconfig.
Variable summary : xstate -> text.
Notation r := (xc_maxRetries C).

Definition TX (s : xstate) (m : list cmsg) (s' : xstate) : Prop :=
  exists l, x_tr s' = rev l ++ x_tr s /\ tells r true (x_tr s) m l.
Lemma TX_trans a m1 b m2 c : TX a m1 b -> TX b m2 c -> TX a (m1 ++ m2) c.
Proof.
  intros (l1 & E1 & H1) (l2 & E2 & H2). exists (l1 ++ l2). rewrite rev_app_distr, <- app_assoc. split; [congruence|].
  apply tells_app; [exact H1|]. now rewrite <- E1.
Qed.
Lemma TX_same s s' : x_tr s' = x_tr s -> TX s [] s'.
Proof. intros E. exists []. split; [exact E|apply tells_nil]. Qed.
Lemma TX_dull s s' l : x_tr s' = rev l ++ x_tr s -> Forall (fun o => dull true o = true) l -> TX s [] s'.
Proof. intros E F. exists l. split; [exact E|now apply tells_dull]. Qed.
Lemma TX_emit o s : dull true o = true -> TX s [] (x_emit o s).
Proof. intros H. apply (TX_dull s (x_emit o s) [o]); [reflexivity|repeat constructor; exact H]. Qed.

(** only a running fetcher waits for something *)
Definition alive (x : slot) : Prop := match x with Some (f, _) => f_phase f <> PhNone -> f_isRunning f = true | None => True end.
Definition KX (s : xstate) : Prop := Forall alive (x_slots s).

Lemma alive_upd x l : alive x -> Forall alive l -> forall i, Forall alive (upd i x l).
Proof.
  intros Hx. induction 1 as [|y l Hy Hl IH]; intros i; destruct i; cbn [upd]; constructor; auto.
Qed.
Lemma alive_cancel f k : alive (Some (f, k)) -> alive (Some (f_cancel f, k)).
Proof. cbn. unfold f_cancel. destruct (f_isRunning f) eqn:E; [|rewrite E; auto]. cbn. congruence. Qed.
Lemma alive_step c f k e : alive (Some (f, k)) -> alive (Some (fst (f_step c f e), k)).
Proof.
  intros H. destruct e as [|rs| | |].
  - unfold f_step. destruct (f_phase f) eqn:Ep; try exact H. unfold f_handleData. destruct (negb _); cbn; congruence.
  - unfold f_step. destruct (f_phase f) eqn:Ep; try exact H. unfold f_handleNack.
    destruct (negb (f_isRunning (f_setPhase PhNone f))) eqn:Er; [cbn; congruence|]. cbv zeta. apply negb_false_iff in Er.
    unfold f_isRunning in Er. cbn in Er.
    destruct (Z.eqb (fc_maxNack c) MAX_RETRIES_INFINITE); cbn [orb fst f_nNacks f_setPhase];
      destruct (_ || _); try (cbn; congruence);
      (destruct rs; cbn -[Z.pow]; try congruence; unfold f_congestion; try (destruct (_ <? _)); cbn; intros; exact Er).
  - unfold f_step. destruct (f_phase f) eqn:Ep; try exact H. unfold f_handleTimeout.
    destruct (negb (f_isRunning (f_setPhase PhNone f))) eqn:Er; [cbn; congruence|]. cbv zeta. apply negb_false_iff in Er.
    unfold f_isRunning in Er. cbn in Er.
    destruct (Z.eqb (fc_maxTimeout c) MAX_RETRIES_INFINITE); cbn [orb fst];
      destruct (_ || _); cbn; try congruence; intros; exact Er.
  - unfold f_step. destruct (f_phase f) eqn:Ep; try exact H. cbn. intros _. cbn in H. unfold f_isRunning in *. cbn. apply H. congruence.
  - unfold f_step. cbn [fst]. apply (alive_cancel f k H).
Qed.
Lemma alive_learn n l : Forall alive l -> Forall alive (fst (fst (x_learn n l))).
Proof.
  induction 1 as [|x l Hx Hl IH]; cbn [x_learn]; [constructor|]. destruct x as [[f k]|].
  - destruct (N.ltb n k); [|destruct (f_hasError f); [constructor; assumption|]]; destruct (x_learn n l) as [[a b] c]; cbn [fst] in *; constructor; auto.
    now apply alive_cancel.
  - destruct (x_learn n l) as [[a b] c]. cbn [fst] in *. constructor; auto.
Qed.
Lemma alive_after k l : Forall alive l -> Forall alive (map (x_cancelAfter k) l).
Proof.
  induction 1 as [|x l Hx Hl IH]; cbn [map]; constructor; [|exact IH]. destruct x as [[f k']|]; cbn [x_cancelAfter]; [|exact I].
  destruct (N.ltb k k'); [now apply alive_cancel|exact Hx].
Qed.

Lemma dull_abandoned x : Forall (fun o => dull true o = true) (abandoned x).
Proof. destruct x as [[f k]|]; cbn; [destruct (f_isRunning f)|]; repeat constructor. Qed.
Lemma dull_flat {A} (f : A -> list pobs) l : (forall x, Forall (fun o => dull true o = true) (f x)) ->
  Forall (fun o => dull true o = true) (flat_map f l).
Proof. intros H. induction l as [|x l IH]; cbn; [constructor|]. apply Forall_app. auto. Qed.
Lemma dull_learn n l : Forall (fun o => dull true o = true) (snd (fst (x_learn n l))).
Proof.
  induction l as [|x l IH]; cbn [x_learn]; [constructor|]. destruct x as [[f k]|].
  - destruct (N.ltb n k); [|destruct (f_hasError f); [constructor|]]; destruct (x_learn n l) as [[a b] c]; cbn [fst snd] in *; auto.
    apply Forall_app. split; [apply (dull_abandoned (Some (f, k)))|exact IH].
  - destruct (x_learn n l) as [[a b] c]. exact IH.
Qed.

Notation ok s m s' := (TX s m s' /\ KX s').
Lemma X_cancel s : KX s -> ok s [] (x_cancel s).
Proof.
  intros H. unfold x_cancel. destruct (b_stopping (x_b s)); [split; [now apply TX_same|exact H]|]. split; [|constructor].
  eapply TX_dull; [reflexivity|]. apply dull_flat, dull_abandoned.
Qed.
Lemma X_onFailure rs s : KX s -> ok s [] (x_onFailure rs s).
Proof.
  intros H. unfold x_onFailure. destruct (b_stopping (x_b s)); [split; [now apply TX_same|exact H]|].
  destruct (X_cancel s H) as [H1 H2]. split; [|exact H2]. refine (TX_trans _ [] _ [] _ H1 _). now apply TX_emit.
Qed.
Lemma X_fetchNext i s : KX s -> ok s (mx_fetchNext s) (fst (fetchNextSegment C i s)).
Proof.
  intros H. unfold mx_fetchNext, fetchNextSegment. destruct (b_stopping (x_b s)); [split; [now apply TX_same|exact H]|].
  destruct (x_hasFailure s); [now apply X_onFailure|]. unfold b_getNext. cbv zeta.
  destruct (_ && _); [split; [now apply TX_same|exact H]|].
  set (s1 := x_setB _ s). set (s2 := x_emit (OInterest (b_next (x_b s)) false) s1).
  assert (H2 : TX s [MRequest (b_next (x_b s))] s2).
  { exists [OInterest (b_next (x_b s)) false]. split; [reflexivity|]. constructor; reflexivity. }
  set (s3 := match nth_error (x_slots s2) i with Some (Some (f, _)) => if f_isRunning f then x_emit OAssert s2 else s2 | _ => s2 end).
  assert (H3 : TX s2 [] s3 /\ x_slots s3 = x_slots s).
  { unfold s3. destruct (nth_error (x_slots s2) i) as [[[f k]|]|]; try (split; [now apply TX_same|reflexivity]).
    destruct (f_isRunning f); [split; [now apply TX_emit|reflexivity]|split; [now apply TX_same|reflexivity]]. }
  destruct H3 as [H3 E3]. cbn [fst]. split.
  - pose proof (TX_trans _ _ _ _ _ H2 H3) as (l & E & Ht). exists l. split; [exact E|exact Ht].
  - unfold KX. cbn [x_slots x_setSlots]. rewrite E3. apply alive_upd; [|exact H]. cbn. reflexivity.
Qed.
Lemma X_doRun k : forall i s, KX s -> ok s (mx_doRun C k i s) (x_doRun C k i s).
Proof.
  induction k as [|k IH]; intros i s H; cbn [mx_doRun x_doRun]; [split; [now apply TX_same|exact H]|].
  destruct (X_fetchNext i s H) as [H1 H2]. destruct (fetchNextSegment C i s) as [s1 b]. cbn [fst] in *. destruct b.
  - destruct (IH (S i) s1 H2) as [H3 H4]. split; [exact (TX_trans _ _ _ _ _ H1 H3)|exact H4].
  - rewrite app_nil_r. auto.
Qed.
Lemma X_advance i s : KX s -> ok s (mx_advance summary s) (x_advance C i s).
Proof.
  intros H. unfold mx_advance, x_advance. destruct (b_allReceived (x_b s)); [|now apply X_fetchNext].
  split; [|exact H]. exists [ODone]. split; [reflexivity|]. constructor; reflexivity.
Qed.
Lemma X_crash s : KX s -> ok s [] (x_crash s).
Proof. intros H. split; [|exact H]. apply (TX_dull s (x_crash s) [OThrow]); [reflexivity|repeat constructor]. Qed.
Lemma X_handleData i seg d s : KX s -> ok s (mx_handleData C summary seg d s) (x_handleData C i seg d s).
Proof.
  intros H. unfold mx_handleData, x_handleData. destruct (b_stopping (x_b s)); [split; [now apply TX_same|exact H]|]. cbv zeta.
  set (s1 := x_emit (ODeliver seg d) (x_setB (b_received d (x_b s)) s)).
  assert (H1 : TX s [MReceived seg] s1) by (exists [ODeliver seg d]; split; [reflexivity|]; constructor; reflexivity).
  assert (K1 : KX s1) by exact H.
  assert (Hgo : forall m s', ok s1 m s' -> ok s (MReceived seg :: m) s').
  { intros m s' [G1 G2]. split; [exact (TX_trans _ _ _ _ _ H1 G1)|exact G2]. }
  apply Hgo. destruct (xc_cbThrows C d); [now apply X_crash|]. destruct (b_hasFbi (x_b s1)); [now apply X_advance|].
  destruct (d_fbi d) as [|n|]; [now apply X_advance| |now apply X_crash].
  pose proof (alive_learn n (x_slots s1) K1) as Hl. pose proof (dull_learn n (x_slots s1)) as Hd.
  destruct (x_learn n (x_slots s1)) as [[l o] e]. cbn [fst snd] in *.
  set (s2 := XState _ l _ _ _).
  assert (H2 : TX s1 [] s2) by (eapply TX_dull; [reflexivity|exact Hd]).
  assert (K2 : KX s2) by exact Hl.
  destruct e as [k|].
  - destruct (X_onFailure (RSegment k) s2 K2) as [G1 G2]. split; [exact (TX_trans _ [] _ _ _ H2 G1)|exact G2].
  - destruct (X_advance i s2 K2) as [G1 G2]. split; [exact (TX_trans _ [] _ _ _ H2 G1)|exact G2].
Qed.
Lemma X_handleFail seg s : KX s -> ok s [] (x_handleFail seg s).
Proof.
  intros H. unfold x_handleFail. destruct (b_stopping (x_b s)); [split; [now apply TX_same|exact H]|].
  destruct (_ && _); [now apply X_onFailure|]. destruct (b_hasFbi (x_b s)); [split; [now apply TX_same|exact H]|]. cbv zeta.
  set (s1 := XState _ (map _ _) _ _ _).
  assert (H1 : TX s [] s1).
  { eapply TX_dull; [reflexivity|]. apply dull_flat. intros [[f k]|]; cbn; [|constructor]. destruct (N.ltb seg k); [apply (dull_abandoned (Some (f, k)))|constructor]. }
  assert (K1 : KX s1) by exact (alive_after seg _ H).
  destruct (existsb _ _).
  - split; [|exact K1]. destruct H1 as (l & E & Ht). exists l. split; [exact E|exact Ht].
  - destruct (X_onFailure RNoFinal s1 K1) as [G1 G2]. split; [exact (TX_trans _ [] _ _ _ H1 G1)|exact G2].
Qed.
Definition needs_running (o : fobs) : bool := match o with FoGotNack _ | FoGotTimeout => true | _ => false end.
Lemma X_react i seg d running s o : KX s -> (needs_running o = true -> running = true) ->
  ok s (mx_react C summary seg d running s o) (x_react C i seg d s o).
Proof.
  intros H Hr. destruct o as [| |rs| | | | |]; cbn [mx_react x_react needs_running] in *.
  - split; [|exact H]. exists [OInterest seg true]. split; [reflexivity|]. constructor; reflexivity.
  - split; [now apply TX_emit|exact H].
  - rewrite (Hr eq_refl). split; [|exact H]. exists [OGotNack seg rs]. split; [reflexivity|]. constructor; reflexivity.
  - rewrite (Hr eq_refl). split; [|exact H]. exists [OGotExpiry seg]. split; [reflexivity|]. constructor; reflexivity.
  - split; [now apply TX_same|exact H].
  - split; [now apply TX_emit|exact H].
  - now apply X_handleData.
  - now apply X_handleFail.
Qed.
Lemma X_reacts i seg d running os : (forall o, In o os -> needs_running o = true -> running = true) -> forall s, KX s ->
  ok s (mx_reacts C summary i seg d running s os) (fold_left (x_react C i seg d) os s).
Proof.
  induction os as [|o os IH]; intros Hr s H; cbn [mx_reacts fold_left]; [split; [now apply TX_same|exact H]|].
  destruct (X_react i seg d running s o H) as [H1 H2]; [intros Ho; apply (Hr o); [now left|exact Ho]|].
  destruct (IH (fun o' Ho' => Hr o' (or_intror Ho')) _ H2) as [H3 H4]. split; [exact (TX_trans _ _ _ _ _ H1 H3)|exact H4].
Qed.
Lemma step_running c f k e : alive (Some (f, k)) -> forall o, In o (snd (f_step c f e)) -> needs_running o = true -> f_isRunning f = true.
Proof.
  intros H o Ho Hn. cbn in H. destruct (f_phase f) eqn:Ep; [|apply H; discriminate|apply H; discriminate].
  destruct e; unfold f_step in Ho; try rewrite Ep in Ho; cbn in Ho; try contradiction.
  destruct Ho as [<-|[]]. discriminate Hn.
Qed.
Lemma nth_alive l i x : Forall alive l -> nth_error l i = Some x -> alive x.
Proof. intros H E. rewrite Forall_forall in H. exact (H x (nth_error_In _ _ E)). Qed.
Lemma X_slotEvent i d e s : KX s -> ok s (mx_slotEvent C summary i d e s) (x_slotEvent C i d e s).
Proof.
  intros H. unfold mx_slotEvent, x_slotEvent. destruct (nth_error (x_slots s) i) as [[[f seg]|]|] eqn:En;
    try (split; [now apply TX_same|exact H]).
  pose proof (nth_alive _ _ _ H En) as Ha. pose proof (alive_step (x_fconfig C) f seg e Ha) as Hs.
  pose proof (step_running (x_fconfig C) f seg e Ha) as Hr. destruct (f_step (x_fconfig C) f e) as [f' os]. cbn [fst snd] in *.
  set (s1 := x_setSlots (upd i (Some (f', seg)) (x_slots s)) s).
  assert (K1 : KX s1) by (apply alive_upd; assumption).
  destruct (X_reacts i seg d (f_isRunning f) os Hr s1 K1) as [G1 G2]. split; [|exact G2].
  destruct G1 as (l & E & Ht). exists l. split; [exact E|exact Ht].
Qed.
Lemma X_step s e : KX s -> ok s (mx_step C summary s e) (x_step C s e).
Proof.
  intros H. unfold mx_step, x_step. destruct (x_crashed s); [split; [now apply TX_same|exact H]|].
  destruct e; try now apply X_slotEvent.
  destruct (X_cancel (x_emit OGotCancel s) H) as [H1 H2]. split; [|exact H2]. refine (TX_trans _ [] _ [] _ _ H1). now apply TX_emit.
Qed.
Lemma X_from es : forall s, KX s -> ok s (mx_from C summary s es) (fold_left (x_step C) es s).
Proof.
  induction es as [|e es IH]; intros s H; cbn [mx_from fold_left]; [split; [now apply TX_same|exact H]|].
  destruct (X_step s e H) as [H1 H2]. destruct (IH _ H2) as [H3 H4]. split; [exact (TX_trans _ _ _ _ _ H1 H3)|exact H4].
Qed.
Lemma KX_init : KX (x_init C).
Proof. unfold KX. cbn. induction (xc_size C); cbn; constructor; [exact I|assumption]. Qed.

Theorem fixed_lines es : tells r true [] (mx_run C summary es) (x_history (x_run C es)).
Proof.
  destruct (X_doRun (xc_size C) 0 (x_init C) KX_init) as [H1 H2]. destruct (X_from es _ H2) as [H3 _].
  destruct (TX_trans _ _ _ _ _ H1 H3) as (l & E & Ht). cbn [x_init x_tr] in E, Ht. rewrite app_nil_r in E.
  unfold x_history, x_run. rewrite E, rev_involutive. exact Ht.
Qed.
End Fixed.
