(** Lemmas about ndnpeek and ndnpoke. *)
From Verif Require Import Base TlvModel TlvProofs PeekModel.

(** * ndnpeek *)
Definition decisive (o : peek_opts) (e : peek_event) : bool :=
  match e with PeTimer => pk_timeout o | _ => true end.

Lemma peek_done o s es : pk_pending s = false -> pk_timer s = false -> fold_left (peek_step o) es s = s.
Proof.
  intros H1 H2. induction es as [|e es IH]; [reflexivity|]. cbn [fold_left].
  replace (peek_step o s e) with s; [exact IH|]. destruct e; cbn [peek_step]; now rewrite ?H1, ?H2.
Qed.

Lemma peek_skip o es : (forall e, In e es -> decisive o e = false) -> peek_run o es = peek_start o.
Proof.
  unfold peek_run. intros H. induction es as [|e es IH]; [reflexivity|]. cbn [fold_left].
  pose proof (H e (or_introl eq_refl)) as He. destruct e; try discriminate. cbn [decisive] in He.
  replace (peek_step o (peek_start o) PeTimer) with (peek_start o).
  - apply IH. intros; apply H; now right.
  - cbn. now rewrite He.
Qed.

Lemma peek_first o es e es' : (forall e, In e es -> decisive o e = false) -> decisive o e = true ->
  let s := peek_run o (es ++ e :: es') in
  peek_ended s = true /\
  match e with
  | PeData w => pk_result s = PkData /\ pk_out s = [if pk_payloadOnly o then content_of_wire w else w]
  | PeNack w => pk_result s = PkNack /\ pk_out s = [if pk_payloadOnly o then reason_text (nack_code w) ++ [newline] else w]
  | PeExpired | PeTimer => pk_result s = PkTimeout /\ pk_out s = []
  end.
Proof.
  intros Hs He s. unfold s, peek_run. rewrite fold_left_app. cbn [fold_left].
  fold (peek_run o es). rewrite (peek_skip o es Hs).
  destruct e; cbn [peek_step peek_start pk_pending pk_timer]; cbn [decisive] in He; rewrite ?He;
    rewrite peek_done by reflexivity; repeat split; reflexivity.
Qed.

Lemma decisive_split o es : (forall e, In e es -> decisive o e = false) \/
  exists a e b, es = a ++ e :: b /\ (forall x, In x a -> decisive o x = false) /\ decisive o e = true.
Proof.
  induction es as [|x es IH]; [left; intros e []|]. destruct (decisive o x) eqn:E.
  - right. exists [], x, es. repeat split; auto. intros ? [].
  - destruct IH as [H|(a & e & b & -> & H1 & H2)].
    + left. intros e [<-|H']; auto.
    + right. exists (x :: a), e, b. repeat split; auto. intros y [<-|H']; auto.
Qed.

Lemma peek_one_output o es : (length (pk_out (peek_run o es)) <= 1)%nat.
Proof.
  destruct (decisive_split o es) as [H|(a & e & b & -> & H1 & H2)].
  - rewrite (peek_skip o es H). cbn. lia.
  - destruct (peek_first o a e b H1 H2) as [_ H]. destruct e; destruct H as [_ ->]; cbn; lia.
Qed.

Lemma peek_status_iff o es : let s := peek_run o es in
  (peek_status (pk_result s) = 1%Z <-> peek_ended s = false) /\
  (peek_status (pk_result s) = 1%Z \/ peek_status (pk_result s) = 3%Z -> pk_out s = []) /\
  (peek_status (pk_result s) = 0%Z -> exists w, In (PeData w) es /\ pk_out s = [if pk_payloadOnly o then content_of_wire w else w]) /\
  (peek_status (pk_result s) = 4%Z -> exists w, In (PeNack w) es /\ pk_out s = [if pk_payloadOnly o then reason_text (nack_code w) ++ [newline] else w]) /\
  (peek_status (pk_result s) = 3%Z -> In PeExpired es \/ (In PeTimer es /\ pk_timeout o = true)).
Proof.
  intros s. subst s. destruct (decisive_split o es) as [H|(a & e & b & -> & H1 & H2)].
  - rewrite (peek_skip o es H). repeat split; intros; try discriminate; auto.
  - destruct (peek_first o a e b H1 H2) as [E H]. rewrite E.
    assert (Hin : In e (a ++ e :: b)) by (apply in_or_app; right; now left).
    destruct e; destruct H as [-> ->]; cbn [peek_status]; repeat split; intros; try discriminate; eauto; intuition (try lia).
Qed.

Lemma peek_stable o es es' : peek_ended (peek_run o es) = true -> peek_run o (es ++ es') = peek_run o es.
Proof.
  unfold peek_run, peek_ended. rewrite fold_left_app. intros H. apply peek_done; destruct (pk_pending _), (pk_timer _); auto; discriminate.
Qed.

Lemma peek_decides o es e es' :
    (forall x, In x es -> x = PeTimer /\ pk_timeout o = false) ->
    (e = PeTimer -> pk_timeout o = true) ->
    let s := peek_run o (es ++ e :: es') in
    peek_ended s = true /\
    peek_status (pk_result s) = (match e with PeData _ => 0 | PeNack _ => 4 | PeExpired | PeTimer => 3 end)%Z.
Proof.
  intros H He s. destruct (peek_first o es e es') as [H1 H2].
  - intros x Hx. destruct (H x Hx) as [-> H']. exact H'.
  - destruct e; auto.
  - split; [exact H1|]. unfold s. destruct e; destruct H2 as [-> _]; reflexivity.
Qed.

(** ** the payload *)
Lemma content_of_data pre v post : Forall (fun e => elem_ok (fst e) (snd e)) (pre ++ (TContent, v) :: post) ->
  u64 (N.of_nat (length (encode_all (pre ++ (TContent, v) :: post)))) ->
  (forall e, In e pre -> fst e <> TContent) ->
  content_of_wire (tlv TData (encode_all (pre ++ (TContent, v) :: post))) = v.
Proof.
  intros H Hu Hp. unfold content_of_wire.
  rewrite <- (app_nil_r (tlv _ _)), read_tlv_tlv by (split; [unfold type_ok, TData; lia|exact Hu]).
  rewrite parse_encode by exact H. unfold find_elem.
  clear H Hu. induction pre as [|[t x] pre IH]; cbn [app find fst].
  - now rewrite N.eqb_refl.
  - destruct (N.eqb_spec t TContent) as [->|_]; [exfalso; apply (Hp (TContent, x)); [now left|reflexivity]|].
    apply IH. intros; apply Hp; now right.
Qed.
Lemma content_of_data_none es : Forall (fun e => elem_ok (fst e) (snd e)) es ->
  u64 (N.of_nat (length (encode_all es))) -> (forall e, In e es -> fst e <> TContent) ->
  content_of_wire (tlv TData (encode_all es)) = [].
Proof.
  intros H Hu Hp. unfold content_of_wire.
  rewrite <- (app_nil_r (tlv _ _)), read_tlv_tlv by (split; [unfold type_ok, TData; lia|exact Hu]).
  rewrite parse_encode by exact H. unfold find_elem.
  clear H Hu. induction es as [|[t x] es IH]; cbn [find fst]; [reflexivity|].
  destruct (N.eqb_spec t TContent) as [->|_]; [exfalso; apply (Hp (TContent, x)); [now left|reflexivity]|].
  apply IH. intros; apply Hp; now right.
Qed.
Lemma nack_code_header r : u64 r -> nack_code (tlv TNack (tlv TNackReason (nni r))) = r.
Proof.
  intros Hr. destruct (nni_ok r Hr) as [_ H2]. pose proof (nni_length r) as Hl.
  assert (E : elem_ok TNackReason (nni r)) by (split; [unfold type_ok, TNackReason; lia|unfold u64; lia]).
  assert (P : parse_value (encode_all [(TNackReason, nni r)]) = Some [(TNackReason, nni r)]) by (apply parse_encode; constructor; [exact E|constructor]).
  cbn [encode_all flat_map fst snd] in P. rewrite app_nil_r in P.
  unfold nack_code. rewrite <- (app_nil_r (tlv TNack _)), read_tlv_tlv.
  - rewrite P. cbn. exact H2.
  - split; [unfold type_ok, TNack; lia|]. unfold tlv. rewrite !app_length.
    replace (length (var_number TNackReason)) with 3%nat by reflexivity.
    assert (length (var_number (N.of_nat (length (nni r)))) <= 9)%nat.
    { unfold var_number. repeat (destruct (_ <? _)%N; [cbn [length]; rewrite ?be_length; lia|]). cbn [length]; rewrite be_length; lia. }
    unfold u64. lia.
Qed.

Lemma peek_prints_packet o (w : list N) es' : pk_payloadOnly o = false ->
    concat (pk_out (peek_run o (PeData w :: es'))) = w.
Proof.
  intros H. destruct (peek_first o [] (PeData w) es') as [_ [_ E]]; [intros ? []|reflexivity|].
  cbn [app] in E. rewrite E, H. cbn. apply app_nil_r.
Qed.
Lemma peek_prints_payload o pre content post es' :
    pk_payloadOnly o = true ->
    Forall (fun e => elem_ok (fst e) (snd e)) (pre ++ (TContent, content) :: post) ->
    u64 (N.of_nat (length (encode_all (pre ++ (TContent, content) :: post)))) ->
    (forall e, In e pre -> fst e <> TContent) ->
    concat (pk_out (peek_run o (PeData (tlv TData (encode_all (pre ++ (TContent, content) :: post))) :: es'))) = content.
Proof.
  intros H H1 H2 H3. set (w := tlv TData _). destruct (peek_first o [] (PeData w) es') as [_ [_ E]]; [intros ? []|reflexivity|].
  cbn [app] in E. rewrite E, H. cbn [concat]. rewrite app_nil_r. now apply content_of_data.
Qed.
Lemma peek_prints_no_payload o elems es' :
    pk_payloadOnly o = true ->
    Forall (fun e => elem_ok (fst e) (snd e)) elems -> u64 (N.of_nat (length (encode_all elems))) ->
    (forall e, In e elems -> fst e <> TContent) ->
    concat (pk_out (peek_run o (PeData (tlv TData (encode_all elems)) :: es'))) = [].
Proof.
  intros H H1 H2 H3. set (w := tlv TData _). destruct (peek_first o [] (PeData w) es') as [_ [_ E]]; [intros ? []|reflexivity|].
  cbn [app] in E. rewrite E, H. cbn [concat]. rewrite app_nil_r. now apply content_of_data_none.
Qed.
Lemma peek_prints_nack o (r : N) es' : u64 r ->
    let header := tlv TNack (tlv TNackReason (nni r)) in
    concat (pk_out (peek_run o (PeNack header :: es'))) =
      if pk_payloadOnly o then reason_text r ++ [newline] else header.
Proof.
  intros H w. destruct (peek_first o [] (PeNack w) es') as [_ [_ E]]; [intros ? []|reflexivity|].
  cbn [app] in E. rewrite E. unfold w. rewrite nack_code_header by exact H. destruct (pk_payloadOnly o); cbn [concat]; apply app_nil_r.
Qed.

(** * ndnpoke *)
Section PokeProofs.
Variable digest : packet -> component.
Variable fits : packet -> bool.
Variable o : poke_opts.
Variable input : list N.
Notation run := (poke_run digest fits o input).
Notation step := (poke_step digest fits o input).
Notation d := (poke_data o input).

Lemma run_snoc es e : run (es ++ [e]) = step (run es) e.
Proof. unfold poke_run. now rewrite fold_left_app. Qed.

Record pinv (es : list poke_event) (s : poke) : Prop := {
  pi_once  : (length (pp_sent s) <= 1)%nat;
  pi_which : forall x, In x (pp_sent s) -> x = d /\ fits d = true;
  pi_res   : pp_result s = PpSent <-> pp_sent s <> [];
  pi_open  : pp_reg s = RegWaiting \/ pp_reg s = RegActive -> pp_crash s = false /\ pp_result s = PpUnknown;
  pi_shut  : pp_reg s = RegNone \/ pp_reg s = RegClosed -> pp_timer s = false /\ (pp_crash s = true <-> pp_result s = PpUnknown);
  pi_wait  : pp_reg s = RegWaiting -> pp_timer s = false /\ ~ In PoRegSuccess es /\ ~ In PoRegFailure es;
  pi_act   : pp_reg s = RegActive -> In PoRegSuccess es /\ pp_timer s = pp_timeout o;
  pi_none  : pp_reg s = RegNone <-> pp_unsolicited o = true;
  pi_why   : pp_sent s <> [] -> pp_unsolicited o = true \/
             exists e1 i e2, es = e1 ++ PoInterest i :: e2 /\ In PoRegSuccess e1 /\ matches_data digest i d = true;
  pi_crash : pp_crash s = true -> fits d = false;
  pi_time  : pp_result s = PpTimeout -> pp_timeout o = true /\ In PoTimer es /\ In PoRegSuccess es;
  pi_fail  : pp_result s = PpRegFail -> In PoRegFailure es
}.

Lemma pinv_start : pinv [] (poke_start fits o input).
Proof.
  unfold poke_start, poke_send. destruct (pp_unsolicited o) eqn:Eu; [destruct (fits d) eqn:Ef|]; constructor; cbn;
    intros; try tauto; try lia; try discriminate; try (intuition (try discriminate; congruence)).
Qed.
Lemma pinv_step es s e : pinv es s -> pinv (es ++ [e]) (step s e).
Proof.
  intros I. unfold poke_step.
  assert (K : forall x, In x es -> In x (es ++ [e])) by (intros; apply in_or_app; now left).
  assert (Same : (pp_reg s = RegWaiting -> e <> PoRegSuccess /\ e <> PoRegFailure) -> pinv (es ++ [e]) s).
  { intros HW. destruct I. constructor; auto.
    - intros H. destruct (pi_wait0 H) as (A & B & C). destruct (HW H). repeat split; auto; rewrite in_app_iff; cbn; intuition.
    - intros H. destruct (pi_act0 H). auto.
    - intros H. destruct (pi_why0 H) as [?|(e1 & i & e2 & -> & ? & ?)]; [now left|].
      right. exists e1, i, (e2 ++ [e]). rewrite <- app_assoc. auto.
    - intros H. destruct (pi_time0 H) as (? & ? & ?). auto. }
  destruct (pp_crash s) eqn:Ec.
  { apply Same. intros H. destruct (pi_open _ _ I (or_introl H)) as [X _]. congruence. }
  destruct e as [| |i|].
  - destruct (pp_reg s) eqn:Er; try (apply Same; intros; congruence).
    destruct (pi_open _ _ I (or_introl Er)) as [_ R]. destruct (pi_wait _ _ I Er) as (T & _ & _). destruct I.
    assert (N0 : pp_sent s = []). { destruct (pp_sent s) eqn:Es; [reflexivity|]. exfalso. assert (pp_result s = PpSent) by (apply pi_res0; try rewrite Es; discriminate). congruence. }
    constructor; cbn; rewrite ?R, ?N0; intros; try tauto; try lia; try discriminate; try (intuition (try discriminate; try congruence)).
    apply in_or_app. right. now left.
  - destruct (pp_reg s) eqn:Er; try (apply Same; intros; congruence).
    destruct (pi_open _ _ I (or_introl Er)) as [_ R]. destruct (pi_wait _ _ I Er) as (T & _ & _). destruct I.
    assert (N0 : pp_sent s = []). { destruct (pp_sent s) eqn:Es; [reflexivity|]. exfalso. assert (pp_result s = PpSent) by (apply pi_res0; try rewrite Es; discriminate). congruence. }
    constructor; cbn; rewrite ?R, ?N0; intros; try tauto; try lia; try discriminate; try (intuition (try discriminate; try congruence)).
    apply in_or_app. right. now left.
  - destruct (pp_reg s) eqn:Er; try (apply Same; intros; split; congruence).
    unfold poke_onInterest. destruct (matches_data digest i d) eqn:Em; [|apply Same; intros; congruence].
    destruct (pi_open _ _ I (or_intror Er)) as [_ R]. destruct (pi_act _ _ I Er) as (A & T). destruct I.
    assert (N0 : pp_sent s = []). { destruct (pp_sent s) eqn:Es; [reflexivity|]. exfalso. assert (pp_result s = PpSent) by (apply pi_res0; try rewrite Es; discriminate). congruence. }
    unfold poke_send. destruct (fits d) eqn:Ef; constructor; cbn; rewrite ?R, ?N0; cbn; intros; try tauto; try lia; try discriminate;
      try (intuition (try discriminate; try congruence)).
    right. exists es, i, []. auto.
  - destruct (pp_timer s) eqn:Et; [|apply Same; intros; split; congruence].
    assert (Er : pp_reg s = RegActive).
    { destruct (pp_reg s) eqn:Er; auto; [destruct (pi_shut _ _ I (or_introl Er))|destruct (pi_wait _ _ I Er)|destruct (pi_shut _ _ I (or_intror Er))]; congruence. }
    destruct (pi_open _ _ I (or_intror Er)) as [_ R]. destruct (pi_act _ _ I Er) as (A & T). destruct I.
    assert (N0 : pp_sent s = []). { destruct (pp_sent s) eqn:Es; [reflexivity|]. exfalso. assert (pp_result s = PpSent) by (apply pi_res0; try rewrite Es; discriminate). congruence. }
    constructor; cbn; rewrite ?R, ?N0; cbn; intros; try tauto; try lia; try discriminate; try (intuition (try discriminate; try congruence)).
    + apply in_or_app. right. now left.
    + now apply K.
Qed.
Lemma pinv_run es : pinv es (run es).
Proof.
  induction es as [|e es IH] using rev_ind; [exact pinv_start|]. rewrite run_snoc. now apply pinv_step.
Qed.

Lemma poke_once es : (length (pp_sent (run es)) <= 1)%nat.
Proof. apply (pi_once _ _ (pinv_run es)). Qed.
Lemma poke_what es x : In x (pp_sent (run es)) -> x = d.
Proof. intros H. now apply (pi_which _ _ (pinv_run es)) in H. Qed.
Lemma poke_why es : pp_sent (run es) <> [] -> pp_unsolicited o = true \/
  exists e1 i e2, es = e1 ++ PoInterest i :: e2 /\ In PoRegSuccess e1 /\ matches_data digest i d = true.
Proof. apply (pi_why _ _ (pinv_run es)). Qed.

Lemma step_final es e : pp_crash (run es) = true \/ pp_result (run es) <> PpUnknown -> step (run es) e = run es.
Proof.
  intros H. pose proof (pinv_run es) as I. destruct (run es) as [reg tm res cr sent] eqn:E. cbn in *.
  unfold poke_step. cbn. destruct cr; [reflexivity|]. destruct H as [H|H]; [discriminate|].
  assert (reg = RegNone \/ reg = RegClosed) as Hr.
  { destruct reg; auto; [destruct (pi_open _ _ I (or_introl eq_refl))|destruct (pi_open _ _ I (or_intror eq_refl))]; cbn in *; congruence. }
  destruct (pi_shut _ _ I Hr) as [T _]. cbn in T. subst tm.
  destruct e; destruct Hr; subst reg; reflexivity.
Qed.
Lemma status_1_iff es : poke_status (run es) <> 1%Z -> pp_crash (run es) = false /\ pp_result (run es) <> PpUnknown.
Proof. unfold poke_status. destruct (pp_crash (run es)); [congruence|]. destruct (pp_result (run es)); intuition congruence. Qed.
Lemma poke_stable es es' : poke_ended (run es) = true -> run (es ++ es') = run es.
Proof.
  intros H. assert (F : pp_crash (run es) = true \/ pp_result (run es) <> PpUnknown).
  { unfold poke_ended in H. pose proof (pinv_run es) as I. destruct (pp_crash (run es)) eqn:Ec; [now left|]. right.
    assert (Hr : pp_reg (run es) = RegNone \/ pp_reg (run es) = RegClosed) by (destruct (pp_reg (run es)); auto; discriminate).
    destruct (pi_shut _ _ I Hr) as [_ X]. intros Y. apply X in Y. congruence. }
  induction es' as [|e es' IH] using rev_ind; [now rewrite app_nil_r|].
  rewrite app_assoc, run_snoc, IH. now apply step_final.
Qed.
Lemma poke_end_iff es : poke_ended (run es) = false <-> (poke_status (run es) = 1%Z /\ pp_crash (run es) = false).
Proof.
  pose proof (pinv_run es) as I. unfold poke_ended, poke_status. destruct (pp_crash (run es)) eqn:Ec; cbn [orb]; [intuition congruence|].
  destruct (pp_reg (run es)) eqn:Er.
  - destruct (pi_shut _ _ I (or_introl Er)) as [T X]. rewrite T. cbn. split; [discriminate|]. intros [H _].
    destruct (pp_result (run es)); try discriminate. assert (pp_crash (run es) = true) by now apply X. congruence.
  - destruct (pi_open _ _ I (or_introl Er)) as [_ R]. rewrite R. cbn. tauto.
  - destruct (pi_open _ _ I (or_intror Er)) as [_ R]. rewrite R. cbn. tauto.
  - destruct (pi_shut _ _ I (or_intror Er)) as [T X]. rewrite T. cbn. split; [discriminate|]. intros [H _].
    destruct (pp_result (run es)); try discriminate. assert (pp_crash (run es) = true) by now apply X. congruence.
Qed.
Lemma poke_status_meaning es :
  (poke_status (run es) = 0%Z <-> pp_sent (run es) = [d]) /\
  (poke_status (run es) = 3%Z -> pp_timeout o = true /\ In PoTimer es /\ In PoRegSuccess es /\ pp_sent (run es) = []) /\
  (poke_status (run es) = 5%Z -> In PoRegFailure es /\ pp_sent (run es) = []) /\
  (poke_status (run es) = 0%Z \/ poke_status (run es) = 1%Z \/ poke_status (run es) = 3%Z \/ poke_status (run es) = 5%Z).
Proof.
  pose proof (pinv_run es) as I.
  assert (N0 : pp_result (run es) <> PpSent -> pp_sent (run es) = []).
  { intros H. destruct (pp_sent (run es)) eqn:Es; [reflexivity|]. exfalso. apply H. apply (pi_res _ _ I). try rewrite Es. discriminate. }
  assert (N1 : pp_result (run es) = PpSent -> pp_sent (run es) = [d]).
  { intros H. apply (pi_res _ _ I) in H. pose proof (pi_once _ _ I). destruct (pp_sent (run es)) as [|x [|]] eqn:Es; cbn in *; try lia; [congruence|].
    destruct (pi_which _ _ I x) as [-> _]; [try rewrite Es; now left|reflexivity]. }
  unfold poke_status. destruct (pp_crash (run es)) eqn:Ec.
  - repeat split; intros; try discriminate; try tauto; try lia.
    exfalso. apply (pi_crash _ _ I) in Ec. destruct (pi_which _ _ I d) as [_ X]; [rewrite H; now left|congruence].
  - destruct (pp_result (run es)) eqn:Er; repeat split; intros; try discriminate; try lia; try tauto; try (now apply N1);
      try (now apply N0; discriminate);
      try (rewrite N0 in H by discriminate; discriminate);
      try (apply (pi_time _ _ I) in Er; tauto); try (apply (pi_fail _ _ I) in Er; tauto).
Qed.
(** progress *)
Lemma poke_answers es i : In PoRegSuccess es -> poke_ended (run es) = false -> matches_data digest i d = true ->
  pp_sent (run (es ++ [PoInterest i])) = (if fits d then [d] else []) /\ poke_ended (run (es ++ [PoInterest i])) = true.
Proof.
  intros Hs He Hm. pose proof (pinv_run es) as I. apply poke_end_iff in He as He'. destruct He' as [_ Hc].
  assert (Er : pp_reg (run es) = RegActive).
  { destruct (pp_reg (run es)) eqn:Er; auto; unfold poke_ended in He; rewrite Hc, Er in He.
    - destruct (pi_shut _ _ I (or_introl Er)) as [T _]. rewrite T in He. discriminate.
    - destruct (pi_wait _ _ I Er) as (_ & X & _). contradiction.
    - destruct (pi_shut _ _ I (or_intror Er)) as [T _]. rewrite T in He. discriminate. }
  assert (N0 : pp_sent (run es) = []).
  { destruct (pp_sent (run es)) eqn:Es; [reflexivity|]. exfalso. destruct (pi_open _ _ I (or_intror Er)) as [_ R].
    assert (pp_result (run es) = PpSent) by (apply (pi_res _ _ I); try rewrite Es; discriminate). congruence. }
  rewrite run_snoc. unfold poke_step. rewrite Hc, Er. unfold poke_onInterest. rewrite Hm. unfold poke_send.
  destruct (fits d); cbn; rewrite N0; unfold poke_ended; cbn; rewrite ?orb_true_r; auto.
Qed.
Lemma poke_unsolicited es : pp_unsolicited o = true -> pp_sent (run es) = (if fits d then [d] else []) /\ poke_ended (run es) = true.
Proof.
  intros Hu. assert (E : poke_ended (run []) = true).
  { unfold poke_run, poke_start, poke_send. cbn [fold_left]. rewrite Hu. destruct (fits d); reflexivity. }
  change es with ([] ++ es). rewrite poke_stable by exact E. split; [|exact E].
  unfold poke_run, poke_start, poke_send. cbn [fold_left]. rewrite Hu. destruct (fits d); reflexivity.
Qed.
Lemma poke_at_most_once es :
    (length (pp_sent (run es)) <= 1)%nat /\
    forall x, In x (pp_sent (run es)) ->
      k_name x = pp_name o /\ k_content x = input /\ k_fresh x = pp_fresh o /\
      k_fbi x = (if pp_final o then last_comp (pp_name o) else None).
Proof. split; [apply poke_once|]. intros x Hx. rewrite (poke_what es x Hx). cbn. auto. Qed.
End PokeProofs.
