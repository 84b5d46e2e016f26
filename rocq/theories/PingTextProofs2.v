(** Proofs about the output of ndnping during an execution. *)
From Verif Require Import Base TlvModel PingModel PingSpec PingProofs Double PingStatsModel PingStatsSpec PingStatsProofs
  DumpModel DumpSpec DumpProofs2 ThroughputModel DecimalModel DecimalSpec DecimalProofs PingTextModel PingTextSpec PingTextProofs.
From Coq Require Import String Reals Lra Lia Permutation.
From Coq Require Import List.
From Flocq Require Import Core BinarySingleNaN.
Import ListNotations.
Local Open Scope R_scope.
Local Open Scope list_scope.

(** * The lines of the tracer *)
Definition okx (x : gobs) : Prop :=
  match x with
  | GData k r | GNack k r => (k < 18446744073709551616)%N /\ (r < 9223372036854775808)%N
  | GTimeout k => (k < 18446744073709551616)%N
  | _ => True
  end.

Section Trace.
Variable uri : text.
Variable reason : N -> text.
Notation tr := (trace uri reason).

Lemma trace_line x : okx x -> (tr x = [] /\ outcomes [x] = []) \/ (outcomes [x] = [x] /\ line uri reason x (tr x)).
Proof.
  destruct x as [k|k r|k r|k| |]; intros Hx; cbn in Hx; auto; right; split; auto; cbn [trace].
  - destruct Hx. apply line_data; [now apply to_string_decimal|apply to_string_nonempty|now apply rtt_shown].
  - destruct Hx. change (str " ms" ++ str " reason=" ++ reason k ++ newline) with (str " ms reason=" ++ reason k ++ LF).
    apply line_nack; [now apply to_string_decimal|apply to_string_nonempty|now apply rtt_shown].
  - apply line_timeout; [now apply to_string_decimal|apply to_string_nonempty].
Qed.
Lemma trace_lines h : Forall okx h ->
  exists lines, flat_map tr h = concat lines /\ Forall2 (line uri reason) (outcomes h) lines.
Proof.
  induction 1 as [|x h Hx _ (lines & E & F)]; [exists []; split; [reflexivity|constructor]|].
  cbn [flat_map]. rewrite E. change (x :: h) with ([x] ++ h). unfold outcomes. rewrite filter_app. fold (outcomes [x]) (outcomes h).
  destruct (trace_line x Hx) as [[-> ->]|[-> L]].
  - exists lines. auto.
  - exists (tr x :: lines). split; [reflexivity|]. now constructor.
Qed.
End Trace.

(** * Executions *)
Section Run.
Variable o : gopts.
Hypothesis Hopt : valid_gopts o.

Record WH (s : client) : Prop := {
  wh_next : (c_nextSeq s < W64)%N;
  wh_pend : Forall (fun k => (k < W64)%N) (c_pending s);
  wh_hist : Forall okx (c_hist s)
}.
Definition okev (e : gevent) : Prop := match e with GeData _ r | GeNack _ r => (r < 9223372036854775808)%N | _ => True end.

(** one step appends at most two observations *)
Definition grows (s s' : client) : Prop := exists new, c_hist s' = c_hist s ++ new /\ (length new <= 2)%nat.
Lemma finish_hist s : exists new, c_hist (c_finish s) = c_hist s ++ new /\ (new = [] \/ new = [GFinish]) /\
  c_nextSeq (c_finish s) = c_nextSeq s /\ c_pending (c_finish s) = c_pending s.
Proof.
  unfold c_finish. cbn [c_nOut]. destruct (_ >=? 0)%Z.
  - exists []. rewrite app_nil_r. cbn. auto.
  - exists [GFinish]. cbn. auto.
Qed.
Lemma finish_wh s : WH s -> WH (c_finish s).
Proof.
  intros [H1 H2 H3]. destruct (finish_hist s) as (new & E1 & E2 & E3 & E4). split; rewrite ?E3, ?E4, ?E1; auto.
  apply Forall_app. split; [exact H3|]. destruct E2 as [->| ->]; repeat constructor.
Qed.
Lemma mod64 n : (n mod W64 < W64)%N.
Proof. apply N.mod_lt. discriminate. Qed.
Lemma perform_wh s : WH s -> WH (performPing o s).
Proof.
  intros [H1 H2 H3]. unfold performPing. destruct (negb _).
  - split; cbn; auto. apply Forall_app. split; [exact H3|]. repeat constructor.
  - assert (W : forall t, WH (Client (c_nSent s + 1) (N.modulo (c_nextSeq s + 1) W64) (c_nOut s + 1) t
                     (c_pending s ++ [c_nextSeq s]) (c_cancelled s) (c_hist s ++ [GInterest (c_nextSeq s)]))).
    { intros t. split; cbn [c_nextSeq c_pending c_hist]; [apply mod64| |]; apply Forall_app; split; auto; repeat constructor; auto. }
    destruct (_ || _)%bool; [apply W|apply finish_wh, W].
Qed.
Lemma perform_grows s : grows s (performPing o s).
Proof.
  unfold performPing, grows. destruct (negb _); [exists [GAssert]; cbn; auto|].
  destruct (_ || _)%bool; [exists [GInterest (c_nextSeq s)]; cbn; auto|].
  match goal with |- context [c_finish ?z] => destruct (finish_hist z) as (new & E & N & _) end. rewrite E. cbn [c_hist].
  exists ([GInterest (c_nextSeq s)] ++ new). rewrite app_assoc. split; [reflexivity|]. destruct N as [->| ->]; cbn; lia.
Qed.
Lemma remove_first_incl k l : forall x, In x (remove_first k l) -> In x l.
Proof. induction l as [|y l IH]; cbn; [auto|]. intros x. destruct (N.eqb y k); cbn; [auto|]. intros [H|H]; auto. Qed.
Lemma answer_wh s k x : WH s -> ((k < W64)%N -> okx x) -> WH (c_answer k x s).
Proof.
  intros W Hx. unfold c_answer. destruct (existsb (N.eqb k) (c_pending s)) eqn:E; [|exact W].
  apply finish_wh. destruct W as [H1 H2 H3]. apply existsb_exists in E. destruct E as (k' & Hk & E). apply N.eqb_eq in E. subst k'.
  split; cbn; auto.
  - rewrite Forall_forall in *. intros y Hy. apply remove_first_incl in Hy. auto.
  - apply Forall_app. split; [exact H3|]. repeat constructor. apply Hx. rewrite Forall_forall in H2. now apply H2.
Qed.
Lemma answer_grows s k x : grows s (c_answer k x s).
Proof.
  unfold c_answer, grows. destruct (existsb _ _); [|exists []; rewrite app_nil_r; cbn; auto].
  match goal with |- context [c_finish ?z] => destruct (finish_hist z) as (new & E & N & _) end. rewrite E. cbn [c_hist c_emit].
  exists ([x] ++ new). rewrite app_assoc. split; [reflexivity|]. destruct N as [->| ->]; cbn; lia.
Qed.
Lemma step_wh s e : WH s -> okev e -> WH (g_step o s e).
Proof.
  intros W He. destruct e as [|k r|k r|k| |]; cbn [g_step].
  - destruct (c_timer s); [now apply perform_wh|exact W].
  - apply answer_wh; [exact W|]. intros Hk. split; [exact Hk|exact He].
  - apply answer_wh; [exact W|]. intros Hk. split; [exact Hk|exact He].
  - apply answer_wh; [exact W|]. auto.
  - destruct (c_cancelled s); [exact W|]. destruct W. split; auto.
  - exact W.
Qed.
Lemma step_grows s e : grows s (g_step o s e).
Proof.
  destruct e as [|k r|k r|k| |]; cbn [g_step]; try apply answer_grows.
  - destruct (c_timer s); [apply perform_grows|]. exists []. rewrite app_nil_r. cbn. auto.
  - destruct (c_cancelled s); exists []; rewrite app_nil_r; cbn; auto.
  - exists []. rewrite app_nil_r. cbn. auto.
Qed.
Lemma start_wh : WH (g_start o).
Proof. apply perform_wh. destruct Hopt. split; cbn; auto. Qed.
Lemma run_snoc es e : g_run o (es ++ [e]) = g_step o (g_run o es) e.
Proof. unfold g_run. now rewrite fold_left_app. Qed.
Lemma run_wh es : Forall okev es -> WH (g_run o es).
Proof.
  induction es as [|e es IH] using rev_ind; intros H; [apply start_wh|]. rewrite run_snoc. apply Forall_app in H as [H He].
  apply Forall_cons_iff in He as [He _]. apply step_wh; auto.
Qed.
Lemma run_length es : (length (c_hist (g_run o es)) <= 2 * S (length es))%nat.
Proof.
  induction es as [|e es IH] using rev_ind.
  - unfold g_run. cbn [fold_left]. unfold g_start. destruct (perform_grows (Client 0 (g_startSeq o) 0 false [] false [])) as (new & -> & L). cbn. lia.
  - rewrite run_snoc. destruct (step_grows (g_run o es) e) as (new & -> & L). rewrite !app_length. cbn [length]. lia.
Qed.
Lemma okx_rtts h : Forall okx h -> Forall (fun r => (r < 9223372036854775808)%N) (rtts h).
Proof. induction 1 as [|x h Hx _ IH]; [constructor|]. destruct x; cbn in *; auto. constructor; [apply Hx|exact IH]. Qed.
Lemma run_plausible es : measurable es -> plausible (c_hist (g_run o es)).
Proof.
  intros [H1 H2]. split.
  - apply okx_rtts, run_wh. exact H1.
  - pose proof (run_length es). lia.
Qed.

Section Out.
Variable uri : text.
Variable reason : N -> text.
Notation tm es := (tm_run uri reason o es).

Lemma tm_snoc es e : tm (es ++ [e]) = tm_step uri reason o (tm es) e.
Proof. unfold tm_run. now rewrite fold_left_app. Qed.
Lemma tm_client_run es : tm_client (tm es) = g_run o es.
Proof. induction es as [|e es IH] using rev_ind; [reflexivity|]. rewrite tm_snoc, run_snoc. cbn [tm_step tm_client]. now rewrite IH. Qed.
Lemma skipn_app_exact {A} (a b : list A) : skipn (length a) (a ++ b) = b.
Proof. rewrite skipn_app, skipn_all, Nat.sub_diag. reflexivity. Qed.

Lemma out_step es e : e <> GeQuit -> measurable (es ++ [e]) ->
  exists new lines, c_hist (g_run o (es ++ [e])) = c_hist (g_run o es) ++ new /\
    tm_out (tm (es ++ [e])) = tm_out (tm es) ++ concat lines /\ Forall2 (line uri reason) (outcomes new) lines.
Proof.
  intros Hq [Hm _]. pose proof (run_wh _ Hm) as [_ _ W]. rewrite run_snoc in *.
  destruct (step_grows (g_run o es) e) as (new & E & _). rewrite E in *. apply Forall_app in W as [_ W].
  destruct (trace_lines uri reason new W) as (lines & El & Fl). exists new, lines. split; [reflexivity|]. split; [|exact Fl].
  rewrite tm_snoc. cbn [tm_step tm_out]. rewrite tm_client_run. unfold new_trace. rewrite E, skipn_app_exact, El.
  f_equal. destruct e; try apply app_nil_r. congruence.
Qed.
Lemma out_quit es : measurable es ->
  exists t, tm_out (tm (es ++ [GeQuit])) = tm_out (tm es) ++ t /\
    (if c_cancelled (g_run o es) then t = [] else summary (c_hist (g_run o es)) t).
Proof.
  intros Hm. rewrite tm_snoc. cbn [tm_step tm_out]. rewrite tm_client_run. cbn [g_step]. unfold new_trace. rewrite skipn_all. cbn [flat_map app].
  eexists. split; [reflexivity|]. destruct (c_cancelled (g_run o es)); [reflexivity|]. apply summary_ok. now apply run_plausible.
Qed.

Lemma out_trace es : ~ In GeQuit es -> tm_out (tm es) = flat_map (trace uri reason) (c_hist (g_run o es)).
Proof.
  induction es as [|e es IH] using rev_ind; intros Hq; [reflexivity|]. rewrite in_app_iff in Hq.
  rewrite tm_snoc, run_snoc. cbn [tm_step tm_out]. rewrite tm_client_run, IH by tauto.
  destruct (step_grows (g_run o es) e) as (new & E & _). unfold new_trace. rewrite E, skipn_app_exact, flat_map_app. f_equal.
  destruct e; try apply app_nil_r. destruct Hq. right. now left.
Qed.
Lemma whole_output es : ~ In GeQuit es -> measurable es ->
  exists lines rep, ping_stdout uri reason o es = concat lines ++ rep /\
    Forall2 (line uri reason) (outcomes (c_hist (g_run o es))) lines /\ report uri (c_hist (g_run o es)) rep.
Proof.
  intros Hq Hm. destruct (trace_lines uri reason (c_hist (g_run o es))) as (lines & E & F); [apply run_wh, Hm|].
  exists lines. eexists. split; [|split; [exact F|apply report_ok; now apply run_plausible]].
  unfold ping_stdout. rewrite tm_client_run, out_trace, E by assumption. reflexivity.
Qed.
Lemma end_output es : measurable es ->
  exists rep, ping_stdout uri reason o es = tm_out (tm es) ++ rep /\ report uri (c_hist (g_run o es)) rep.
Proof.
  intros Hm. eexists. split; [unfold ping_stdout; rewrite tm_client_run; reflexivity|]. apply report_ok. now apply run_plausible.
Qed.
End Out.
End Run.

(** * The lines can be read *)
Definition numeral (c : N) : Prop := digit c \/ In c [43; 45; 46; 101]%N.
Lemma digits_numeral t : Forall digit t -> Forall numeral t.
Proof. apply Forall_impl. now left. Qed.
Lemma literal_numeral t r : literal t r -> Forall numeral t.
Proof.
  intros (neg & i & f & ni & nf & ex & -> & _ & [I _] & [F _] & X & _).
  repeat (apply Forall_app; split).
  - destruct neg; [apply Forall_cons; [right; cbn; auto|]|]; constructor.
  - now apply digits_numeral.
  - destruct f; [constructor|]. constructor; [right; cbn; auto|]. now apply digits_numeral.
  - destruct ex as [[[s k] n]|]; [|constructor]. destruct (X s k n eq_refl) as [_ [K _]]. constructor; [right; cbn; auto|].
    apply Forall_app. split; [destruct s; (apply Forall_cons; [right; cbn; auto|constructor])|now apply digits_numeral].
Qed.
Lemma numeral_not t c : Forall numeral t -> ~ numeral c -> ~ In c t.
Proof. intros H Hc X. rewrite Forall_forall in H. auto. Qed.
Lemma n10 : ~ numeral 10. Proof. intros [H|H]; [unfold digit in H; lia|]. cbn in H. repeat destruct H as [H|H]; try discriminate. exact H. Qed.
Lemma n32 : ~ numeral 32. Proof. intros [H|H]; [unfold digit in H; lia|]. cbn in H. repeat destruct H as [H|H]; try discriminate. exact H. Qed.

Lemma split_at (c : N) a : forall a' r r', ~ In c a -> ~ In c a' -> a ++ c :: r = a' ++ c :: r' -> a = a' /\ r = r'.
Proof.
  induction a as [|x a IH]; intros [|x' a'] r r' H H' E; cbn in *; injection E; intros; subst.
  - auto.
  - destruct H'. now left.
  - destruct H. now left.
  - destruct (IH a' r r') as [-> ->]; auto.
Qed.

Section Read.
Variable uri : text.
Variables reason reason' : N -> text.
Hypothesis Huri : one_line uri.
Hypothesis Hreason : forall k, one_line (reason k).
Hypothesis Hreason' : forall k, one_line (reason' k).

(** a line without its end *)
Definition body (rs : N -> text) (x : gobs) : text := removelast (trace uri rs x).
Lemma not_in_app (c : N) a b : ~ In c a -> ~ In c b -> ~ In c (a ++ b).
Proof. intros H1 H2 X. apply in_app_or in X. tauto. Qed.
Lemma time_numeral r : (r < 9223372036854775808)%N -> Forall numeral (double_text (rtt_ms r)).
Proof. intros H. eapply literal_numeral. apply double_text_literal. now apply rtt_ms_ok. Qed.
Lemma seq_numeral k : Forall numeral (to_string k).
Proof. apply digits_numeral, to_string_digits. Qed.

Definition outcome (x : gobs) : Prop := match x with GData _ _ | GNack _ _ | GTimeout _ => True | _ => False end.
Lemma trace_body rs x : outcome x -> okx x -> (forall k, one_line (rs k)) ->
  exists b, trace uri rs x = b ++ [10%N] /\ ~ In 10%N b /\ b <> [].
Proof.
  assert (S1 : forall s, ~ In 10%N (str s) -> one_line (str s)) by auto.
  intros Ho Hx Hr. destruct x as [k|k r|k r|k| |]; cbn in Ho; try contradiction; cbn [trace].
  - exists (str "content from " ++ uri ++ str ": seq=" ++ to_string k ++ str " time=" ++ double_text (rtt_ms r) ++ str " ms").
    split; [now rewrite <- !app_assoc|]. split; [|discriminate]. destruct Hx as [_ Hx].
    repeat apply not_in_app; try exact Huri; try (eapply numeral_not; [|exact n10]; first [apply seq_numeral|now apply time_numeral]);
      cbn; intuition discriminate.
  - exists (str "nack from " ++ uri ++ str ": seq=" ++ to_string k ++ str " time=" ++ double_text (rtt_ms r) ++ str " ms" ++ str " reason=" ++ rs k).
    split; [now rewrite <- !app_assoc|]. split; [|discriminate]. destruct Hx as [_ Hx].
    repeat apply not_in_app; try exact Huri; try apply Hr; try (eapply numeral_not; [|exact n10]; first [apply seq_numeral|now apply time_numeral]);
      cbn; intuition discriminate.
  - exists (str "timeout from " ++ uri ++ str ": seq=" ++ to_string k).
    split; [now rewrite <- !app_assoc|]. split; [|discriminate].
    repeat apply not_in_app; try exact Huri; try (eapply numeral_not; [|exact n10]; apply seq_numeral); cbn; intuition discriminate.
Qed.

Lemma same_time a b : (a < 9223372036854775808)%N -> (b < 9223372036854775808)%N ->
  double_text (rtt_ms a) = double_text (rtt_ms b) -> Rabs (exact_ms a - exact_ms b) <= 11 / 1000000 * exact_ms a.
Proof.
  intros Ha Hb E. destruct (rtt_shown a Ha) as (ra & La & Ca). destruct (rtt_shown b Hb) as (rb & Lb & Cb).
  rewrite <- E in Lb. rewrite (literal_unique _ _ _ La Lb) in Ca. pose proof (exact_ge0 a). pose proof (exact_ge0 b).
  apply Rabs_le_inv in Ca. apply Rabs_le_inv in Cb. apply Rabs_le. lra.
Qed.
Lemma sp_app (t : text) : str " ms" ++ t = 32%N :: str "ms" ++ t. Proof. reflexivity. Qed.
Lemma trace_same x y : okx x -> okx y -> outcome x -> outcome y ->
  trace uri reason x = trace uri reason' y -> same_outcome x y.
Proof.
  assert (D : forall k k' r r', (k < 18446744073709551616)%N -> (k' < 18446744073709551616)%N -> no_digit r -> no_digit r' ->
    to_string k ++ r = to_string k' ++ r' -> k = k' /\ r = r').
  { intros k k' r r' Hk Hk' N N' E. apply span_unique in E as [E1 E2]; auto using to_string_digits.
    split; [now apply to_string_inj|exact E2]. }
  intros Hx Hy Ox Oy E. destruct x as [k|k r|k r|k| |], y as [k'|k' r'|k' r'|k'| |]; cbn in Ox, Oy; try contradiction; cbn [trace] in E; try discriminate;
    cbn in Hx, Hy; cbn [same_outcome].
  - apply app_inv_head in E. apply app_inv_head in E. apply app_inv_head in E. apply D in E as [-> E]; try tauto; try (cbn; unfold digit; lia).
    apply app_inv_head in E. rewrite !sp_app in E. apply split_at in E as [E _]; [|eapply numeral_not; [apply time_numeral; tauto|exact n32]..].
    split; [reflexivity|]. now apply same_time.
  - apply app_inv_head in E. apply app_inv_head in E. apply app_inv_head in E. apply D in E as [-> E]; try tauto; try (cbn; unfold digit; lia).
    apply app_inv_head in E. rewrite !sp_app in E. apply split_at in E as [E _]; [|eapply numeral_not; [apply time_numeral; tauto|exact n32]..].
    split; [reflexivity|]. now apply same_time.
  - apply app_inv_head in E. apply app_inv_head in E. apply app_inv_head in E. apply D in E as [-> E]; auto; cbn; unfold digit; lia.
Qed.

Lemma silent rs x : ~ outcome x -> trace uri rs x = [] /\ forall h, outcomes (x :: h) = outcomes h.
Proof. destruct x; cbn; intuition. Qed.
Lemma outcome_dec x : outcome x \/ ~ outcome x.
Proof. destruct x; cbn; auto. Qed.
Lemma outcomes_ok h : Forall okx h -> Forall okx (outcomes h) /\ Forall outcome (outcomes h).
Proof.
  induction 1 as [|x h Hx _ [IH1 IH2]]; [now cbn|]. destruct x; cbn [outcomes filter]; fold (outcomes h); auto; split; constructor; auto; exact I.
Qed.
Lemma flat_outcomes rs h : flat_map (trace uri rs) h = flat_map (trace uri rs) (outcomes h).
Proof. induction h as [|x h IH]; [reflexivity|]. destruct x; cbn [outcomes filter flat_map]; fold (outcomes h); rewrite IH; reflexivity. Qed.

(** the lines end where an empty line begins *)
Lemma read_lines l : forall l' rest rest', Forall okx l -> Forall okx l' -> Forall outcome l -> Forall outcome l' ->
  flat_map (trace uri reason) l ++ 10%N :: rest = flat_map (trace uri reason') l' ++ 10%N :: rest' ->
  Forall2 same_outcome l l' /\ rest = rest'.
Proof.
  induction l as [|x l IH]; intros [|x' l'] rest rest' Hl Hl' Ol Ol' E; cbn [flat_map app] in E.
  - injection E as ->. split; [constructor|reflexivity].
  - apply Forall_cons_iff in Hl' as [Hx' _]. apply Forall_cons_iff in Ol' as [Ox' _].
    destruct (trace_body reason' x' Ox' Hx' Hreason') as ([|c b] & E' & N & NE); [congruence|]. rewrite E' in E. injection E as <- _. destruct N. now left.
  - apply Forall_cons_iff in Hl as [Hx _]. apply Forall_cons_iff in Ol as [Ox _].
    destruct (trace_body reason x Ox Hx Hreason) as ([|c b] & E' & N & NE); [congruence|]. rewrite E' in E. injection E as -> _. destruct N. now left.
  - apply Forall_cons_iff in Hl' as [Hx' Hl']. apply Forall_cons_iff in Ol' as [Ox' Ol'].
    apply Forall_cons_iff in Hl as [Hx Hl]. apply Forall_cons_iff in Ol as [Ox Ol].
    destruct (trace_body reason x Ox Hx Hreason) as (b & Eb & Nb & _). destruct (trace_body reason' x' Ox' Hx' Hreason') as (b' & Eb' & Nb' & _).
    rewrite Eb, Eb', <- !app_assoc in E. cbn [app] in E. apply split_at in E as [-> E]; auto.
    destruct (IH l' rest rest' Hl Hl' Ol Ol' E) as [F ->]. split; [|reflexivity]. constructor; [|exact F].
    apply trace_same; auto. now rewrite Eb, Eb'.
Qed.
Lemma read_output o o' es es' : valid_gopts o -> valid_gopts o' -> measurable es -> measurable es' -> ~ In GeQuit es -> ~ In GeQuit es' ->
  ping_stdout uri reason o es = ping_stdout uri reason' o' es' ->
  Forall2 same_outcome (outcomes (c_hist (g_run o es))) (outcomes (c_hist (g_run o' es'))).
Proof.
  intros V V' M M' Q Q' E. unfold ping_stdout in E. rewrite !tm_client_run, !out_trace in E by assumption.
  rewrite (flat_outcomes reason), (flat_outcomes reason') in E.
  unfold printFull at 1 2 in E. cbn [newline app] in E.
  destruct (outcomes_ok (c_hist (g_run o es))) as [A1 A2]; [apply (run_wh o V es), M|].
  destruct (outcomes_ok (c_hist (g_run o' es'))) as [B1 B2]; [apply (run_wh o' V' es'), M'|].
  exact (proj1 (read_lines _ _ _ _ A1 B1 A2 B2 E)).
Qed.
End Read.

(** * "100% lost" does not mean that everything was lost *)
Definition long_opts : gopts := GOpts [] false (-1) 0 [].
Fixpoint rounds (k : nat) : list gevent :=
  match k with O => [] | S k' => rounds k' ++ [GeTimeout (N.of_nat k'); GeTimer] end.
Fixpoint rounds_hist (k : nat) : list gobs :=
  match k with O => [GInterest 0] | S k' => rounds_hist k' ++ [GTimeout (N.of_nat k'); GInterest (N.of_nat k)] end.
Lemma rounds_run k : (N.of_nat k < 1000000000)%N ->
  g_run long_opts (rounds k) = Client (Z.of_nat k + 1) (N.of_nat k + 1) 1 true [N.of_nat k] false (rounds_hist k).
Proof.
  induction k as [|k IH]; intros Hk; [reflexivity|]. cbn [rounds]. unfold g_run in *. rewrite fold_left_app, IH by lia.
  unfold fold_left, g_step at 2. unfold c_answer. cbn [c_pending existsb]. rewrite N.eqb_refl. cbn [orb].
  unfold c_finish, c_emit. cbn [c_nSent c_nextSeq c_nOut c_timer c_pending c_cancelled c_hist remove_first]. rewrite N.eqb_refl.
  change (1 - 1 >=? 0)%Z with true. cbn [g_step c_timer]. unfold performPing. cbn [g_nPings long_opts Z.ltb Z.compare orb negb c_nSent c_nextSeq c_nOut c_timer c_pending c_cancelled c_hist app].
  change (-1 <? 0)%Z with true. cbn [orb negb].
  rewrite N.mod_small by (unfold W64; lia). f_equal; try lia.
  - f_equal. lia.
  - cbn [rounds_hist]. rewrite <- app_assoc. cbn [app]. replace (N.of_nat (S k)) with (N.of_nat k + 1)%N by lia. reflexivity.
Qed.
Lemma rounds_counts k : data_seqs (rounds_hist k) = [] /\ nack_seqs (rounds_hist k) = [] /\ length (timeout_seqs (rounds_hist k)) = k.
Proof.
  induction k as [|k (H1 & H2 & H3)]; [auto|]. cbn [rounds_hist]. rewrite data_app, nack_app, timeout_app, H1, H2, app_length, H3. cbn. repeat split; auto. lia.
Qed.
Lemma rounds_length k : length (rounds k) = (k + k)%nat.
Proof. induction k as [|k IH]; [reflexivity|]. cbn [rounds]. rewrite app_length, IH. cbn [length]. lia. Qed.
Lemma rounds_okev k : Forall okev (rounds k).
Proof. induction k as [|k IH]; [constructor|]. cbn [rounds]. apply Forall_app. split; [exact IH|]. repeat constructor. Qed.
Lemma rounds_quiet k : ~ In GeQuit (rounds k).
Proof. induction k as [|k IH]; cbn [rounds]; [auto|]. rewrite in_app_iff. intros [H|[H|[H|[]]]]; auto; discriminate. Qed.

Section Many.
Variable many : nat.
Hypothesis many_N : N.of_nat many = 3000000%N.
Definition long_run : list gevent := rounds many ++ [GeData (N.of_nat many) 1000000; GeInterrupt].
Lemma long_result : g_run long_opts long_run =
  Client (Z.of_nat many + 1) (N.of_nat many + 1) 0 false [] true (rounds_hist many ++ [GData (N.of_nat many) 1000000]).
Proof.
  unfold long_run, g_run. rewrite fold_left_app. fold (g_run long_opts (rounds many)). rewrite rounds_run by (rewrite many_N; lia).
  unfold fold_left, g_step at 2. unfold c_answer. cbn [c_pending existsb]. rewrite N.eqb_refl. cbn [orb].
  unfold c_finish, c_emit. cbn [c_nSent c_nextSeq c_nOut c_timer c_pending c_cancelled c_hist remove_first]. rewrite N.eqb_refl. reflexivity.
Qed.
Lemma hundred_percent_k : exists o es uri reason pre post,
  valid_gopts o /\ measurable es /\ g_ended (g_run o es) = true /\
  data_seqs (c_hist (g_run o es)) <> [] /\
  ping_stdout uri reason o es = pre ++ str ", 100% lost, 0% nacked" ++ post.
Proof.
  assert (M : measurable long_run).
  { split.
    - apply Forall_app. split; [apply rounds_okev|]. repeat constructor.
    - unfold long_run. rewrite app_length, rounds_length. cbn [length]. pose proof many_N. lia. }
  assert (V : valid_gopts long_opts) by (split; [left; reflexivity|reflexivity]).
  pose proof (rounds_counts many) as (C1 & C2 & C3).
  exists long_opts, long_run, [], (fun _ => []).
  assert (P : exists pre post, printFull [] (stats_of (c_hist (g_run long_opts long_run))) = pre ++ str ", 100% lost, 0% nacked" ++ post).
  { rewrite long_result. cbn [c_hist]. set (h := rounds_hist many ++ _).
    assert (E : rates_text (stats_of h) = str ", 100% lost, 0% nacked").
    { unfold rates_text, packetLossRate, packetNackedRate. rewrite st_count_eq. cbn [n_sent n_received n_nacked].
      assert (Eh : data_seqs h = [N.of_nat many] /\ nack_seqs h = [] /\ timeout_seqs h = timeout_seqs (rounds_hist many)).
      { unfold h. rewrite data_app, nack_app, timeout_app, C1, C2. split; [reflexivity|]. split; [reflexivity|]. apply app_nil_r. }
      destruct Eh as (E1 & E2 & E3). rewrite settled_split, E1, E2, E3, C3. cbn [length].
      replace (Z.of_nat (1 + 0 + many)) with 3000001%Z by (pose proof many_N; lia). vm_compute. reflexivity. }
    unfold printFull. rewrite E.
    match goal with |- exists pre post, ?l0 ++ ?l1 ++ ?l2 ++ ?l3 ++ ?l4 ++ ?a ++ ?b ++ ?c ++ ?d ++ ?e ++ ?f ++ ?g ++ ?i ++ ?rates ++ ?rest = _ =>
      exists (l0 ++ l1 ++ l2 ++ l3 ++ l4 ++ a ++ b ++ c ++ d ++ e ++ f ++ g ++ i), rest end.
    rewrite <- !app_assoc. reflexivity. }
  destruct P as (pre & post & P). exists (tm_out (tm_run [] (fun _ => []) long_opts long_run) ++ pre), post.
  split; [exact V|]. split; [exact M|]. split; [rewrite long_result; reflexivity|]. split.
  - rewrite long_result. cbn [c_hist]. rewrite data_app. intros H. apply app_eq_nil in H as [_ H]. discriminate.
  - unfold ping_stdout. rewrite tm_client_run, P, <- app_assoc. reflexivity.
Qed.
End Many.
Lemma hundred_percent : exists o es uri reason pre post,
  valid_gopts o /\ measurable es /\ g_ended (g_run o es) = true /\
  data_seqs (c_hist (g_run o es)) <> [] /\
  ping_stdout uri reason o es = pre ++ str ", 100% lost, 0% nacked" ++ post.
Proof. exact (hundred_percent_k (N.to_nat 3000000) (N2Nat.id 3000000)). Qed.
