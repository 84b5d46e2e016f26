(** Proofs about ndnping as a program: the run. *)
From Verif Require Import Base TlvModel PingModel PingSpec PingProofs PingStatsModel PingStatsSpec PeekModel PeekPokeModel PeekWireModel
  DumpModel DissectSpec PingTextModel PingTextSpec PingTextProofs PingTextProofs2 PeekRunModel PingRunModel PingRunSpec PingRunProofs.
From Coq Require Import String List Lia Permutation.
Import ListNotations.
Local Open Scope Z_scope.
Local Open Scope list_scope.
Lemma unlines1 l : unlines [l] = l ++ nl.
Proof. unfold unlines. cbn [flat_map]. apply app_nil_r. Qed.
Local Opaque str unlines to_string.

Section Run.
Variable nonce : N -> list N.
Variable stamp : Z -> text.
Variable send_error : N -> text.
Variable a : ping_args.
Variable prefix : name.
Variable u : text.
Variable first : N.
Hypothesis Hfirst : (first < 2 ^ 64)%N.
Hypothesis Hcount : forall c, ga_count a = Some c -> 1 <= c.
Hypothesis Hid : forall i, ga_identifier a = Some i -> i <> [].
Hypothesis Hinterval : 1 <= ga_interval a.

Definition opts : gopts :=
  GOpts prefix (ga_cache a) (match ga_count a with Some c => c | None => -1 end) first (match ga_identifier a with Some i => i | None => [] end).
Notation o := opts.
Notation over := (PingRunSpec.over a).
Notation complete := (PingRunSpec.complete a).
Notation can_send := (PingRunSpec.can_send nonce a prefix).
Notation pinging := (PingRunSpec.pinging nonce a prefix first).
Notation next := (PingRunSpec.next nonce a prefix first).
Notation number := (PingRunSpec.number first).
Notation prints := (PingRunSpec.prints stamp a u).
Notation packets := (PingRunSpec.packets nonce a prefix).
Notation ping_wire := (PingRunSpec.ping_wire nonce a prefix).
Notation step := (gr_step nonce stamp send_error o a u).

Lemma Hopt : valid_gopts o.
Proof.
  split; [|exact Hfirst]. cbn. destruct (ga_count a) as [c|] eqn:E; [|lia]. specialize (Hcount c eq_refl). lia.
Qed.
Lemma seq_number i : seq_at o i = number i.
Proof. reflexivity. Qed.

(** ** Packets *)
Lemma name_eq k : makePingName o k = ping_name a prefix k.
Proof.
  unfold makePingName, ping_name. cbn [g_prefix g_id opts]. f_equal. f_equal. f_equal.
  destruct (ga_identifier a) as [[|x i]|] eqn:E; try reflexivity. now destruct (Hid [] eq_refl).
Qed.
Lemma no_digest k : filter is_params_digest (ping_name a prefix k) = filter is_params_digest prefix.
Proof.
  unfold ping_name. rewrite filter_app. cbn [app filter]. unfold is_params_digest at 2. cbn [c_type N.eqb TGeneric TParametersDigest].
  rewrite filter_app. destruct (ga_identifier a); cbn; apply app_nil_r.
Qed.
Lemma digests0 : filter is_params_digest prefix = [] <-> Forall (fun c => c_type c <> TParametersDigest) prefix.
Proof.
  induction prefix as [|c l IH]; cbn; [split; auto|]. unfold is_params_digest at 1. destruct (N.eqb_spec (c_type c) TParametersDigest) as [E|E].
  - split; [discriminate|]. intros F. inversion_clear F. contradiction.
  - rewrite IH. split; intros F; [now constructor|now inversion_clear F].
Qed.
Lemma packet_spec k :
  (can_send k /\ ping_packet nonce o (ga_timeout a) k = Some (ping_wire k)) \/
  (~ can_send k /\ ping_packet nonce o (ga_timeout a) k = None).
Proof.
  unfold ping_packet, PingRunSpec.can_send. destruct (Z.ltb_spec (ga_timeout a) 0); [right; split; [lia|reflexivity]|].
  unfold peek_send, create_interest. cbn [pr_name pr_params pr_canBePrefix pr_mustBeFresh pr_hint pr_lifetime pr_hopLimit].
  rewrite name_eq, no_digest. cbn [g_stale opts]. destruct (Nat.ltb_spec 1 (length (filter is_params_digest prefix))) as [L|L].
  { right. split; [|reflexivity]. intros (_ & F & _). apply digests0 in F. rewrite F in L. cbn in L. lia. }
  destruct (Nat.eqb_spec (length (filter is_params_digest prefix)) 0) as [E|E].
  2: { right. split; [|reflexivity]. intros (_ & F & _). apply digests0 in F. rewrite F in E. now destruct E. }
  apply length_zero_iff_nil in E. apply digests0 in E.
  change (interest_wire (nonce k) _) with (ping_wire k).
  destruct (Nat.leb_spec (length (ping_wire k)) (8 * 1100)) as [L'|L']; [left|right]; (split; [|reflexivity]).
  - split; [exact H|]. split; [exact E|]. lia.
  - intros (_ & _ & F). lia.
Qed.

(** ** The invariant *)
Record RI (t0 tl : Z) (es : list (Z * ping_happens)) (h : notes) (r : ping_running) (ges : list gevent) : Prop := {
  ri_pinging : pinging t0 es h;
  ri_client : gr_client r = g_run o ges;
  ri_len : (length ges <= length es)%nat;
  ri_ok : Forall okev ges;
  ri_sent : sent_seqs (c_hist (g_run o ges)) = map snd (sent h);
  ri_outs : outcomes (c_hist (g_run o ges)) = measured h;
  ri_int : In GeInterrupt ges <-> interrupted h;
  ri_times : gr_times r = map (fun e => (snd e, fst e)) (sent h);
  ri_due : (forall t1 k1, In (t1, NSent k1) h -> t1 + ms (ga_interval a) <= gr_due r) /\
           exists t1 k1, In (t1, NSent k1) h /\ gr_due r = t1 + ms (ga_interval a);
  ri_wire : gr_wire r = packets h;
  ri_prints : exists out, gr_out r = title u ++ out /\ prints h out;
  ri_failed : gr_failed r = None;
  ri_clock : Forall (fun e => 0 <= fst e <= tl) h
}.
Lemma ri_measurable t0 tl es h r ges : RI t0 tl es h r ges -> Z.of_nat (length es) < 1000000000 -> measurable ges.
Proof. intros I L. split; [exact (ri_ok _ _ _ _ _ _ I)|]. pose proof (ri_len _ _ _ _ _ _ I). lia. Qed.

Section Facts.
Variables (t0 tl : Z) (es : list (Z * ping_happens)) (h : notes) (r : ping_running) (ges : list gevent).
Hypothesis I : RI t0 tl es h r ges.
Hypothesis L : Z.of_nat (length es) < 1000000000.
Notation c := (g_run o ges).
Lemma ges_few : Z.of_nat (length ges) < 1000000000.
Proof. pose proof (ri_len _ _ _ _ _ _ I). lia. Qed.
Lemma sent_is k : In k (sent_seqs (c_hist c)) <-> exists t, In (t, NSent k) h.
Proof.
  rewrite (ri_sent _ _ _ _ _ _ I), in_map_iff. split.
  - intros ([t k'] & <- & J). exists t. now apply in_sent.
  - intros (t & J). apply in_sent in J. exists (t, k). auto.
Qed.
Lemma settled_is k : In k (settled_seqs (c_hist c)) <-> settled h k.
Proof. now rewrite <- settled_outcomes, (ri_outs _ _ _ _ _ _ I), in_settled. Qed.
Lemma pending_is k : existsb (N.eqb k) (c_pending c) = true <-> exists t1, waiting h k t1.
Proof.
  rewrite (pending_iff o Hopt ges k ges_few), sent_is, settled_is. unfold waiting. split.
  - intros ((t & J) & S). exists t. auto.
  - intros (t & J & S). split; [exists t|]; assumption.
Qed.
Lemma settled_sent k : settled h k -> In k (map snd (sent h)).
Proof.
  intros S. apply settled_is in S. rewrite <- (ri_sent _ _ _ _ _ _ I).
  apply (Permutation_in _ (Permutation_sym (ci_perm _ _ (ci_run o Hopt ges)))), in_or_app. now right.
Qed.
Lemma sent_unique t1 t2 k : In (t1, NSent k) h -> In (t2, NSent k) h -> t1 = t2.
Proof.
  intros H1 H2. apply in_sent in H1, H2. pose proof (sent_nodup o Hopt ges) as D. pose proof (sent_few' o ges ges_few).
  rewrite (ri_sent _ _ _ _ _ _ I) in *. specialize (D ltac:(lia)). clear - H1 H2 D.
  induction (sent h) as [|[t k'] l IH]; [destruct H1|]. cbn in *. inversion_clear D as [|? ? D1 D2].
  destruct H1 as [H1|H1], H2 as [H2|H2]; [congruence|injection H1 as -> ->|injection H2 as -> ->|auto]; destruct D1; apply in_map_iff; eexists; (split; [|eassumption]); reflexivity.
Qed.
Lemma sent_at_is t1 k : In (t1, NSent k) h -> sent_at h k = t1.
Proof.
  intros J. unfold sent_at. destruct (find _ (sent h)) as [[t k']|] eqn:E.
  - apply find_some in E as [E1 E2]. cbn in E2. apply N.eqb_eq in E2. subst k'. apply in_sent in E1. cbn. exact (sent_unique _ _ _ E1 J).
  - apply in_sent in J. eapply find_none in E; [|exact J]. cbn in E. now rewrite N.eqb_refl in E.
Qed.
Lemma sent_time_is k : sent_time r k = sent_at h k.
Proof.
  unfold sent_time, sent_at. rewrite (ri_times _ _ _ _ _ _ I). induction (sent h) as [|[t k'] l IH]; [reflexivity|].
  cbn. destruct (N.eqb k k'); [reflexivity|exact IH].
Qed.
Lemma count_is : c_nSent c = Z.of_nat (length (sent h)).
Proof. rewrite <- (sent_length o Hopt ges), (ri_sent _ _ _ _ _ _ I), map_length. reflexivity. Qed.
Lemma complete_is : complete h <-> c_nSent c = g_nPings o.
Proof.
  rewrite count_is. unfold PingRunSpec.complete. cbn [g_nPings opts]. destruct (ga_count a) as [n|].
  - split; [intros (n' & [= <-] & E); exact E|]. intros E. eauto.
  - split; [intros (n' & E & _); discriminate|]. intros E. lia.
Qed.
Lemma none_pending : c_pending c = [] <-> all_settled h.
Proof.
  split.
  - intros E t k J. destruct (existsb (N.eqb k) (c_pending c)) eqn:Ep; [rewrite E in Ep; discriminate|].
    apply settled_is. apply Decidable.not_not; [unfold Decidable.decidable; destruct (in_dec N.eq_dec k (settled_seqs (c_hist c))); auto|].
    intros S. rewrite (proj2 (pending_iff o Hopt ges k ges_few)) in Ep; [discriminate|]. split; [|exact S]. apply sent_is. eauto.
  - intros A. destruct (c_pending c) as [|k l] eqn:E; [reflexivity|]. exfalso.
    destruct (proj1 (pending_is k)) as (t1 & J & S); [rewrite E; cbn; now rewrite N.eqb_refl|]. apply S, (A t1), J.
Qed.
Lemma finished_is : In GFinish (c_hist c) <-> complete h /\ all_settled h.
Proof.
  rewrite complete_is, <- none_pending. destruct (ci_fin _ _ (ci_run o Hopt ges)) as [(F1 & F2 & _ & l & E & _)|(F1 & F2 & _)].
  - split; [intros _; auto|]. intros _. rewrite E. apply in_or_app. right. now left.
  - split; [intros J; contradiction|]. intros [G1 G2]. tauto.
Qed.
Lemma cancelled_is : c_cancelled c = true <-> interrupted h \/ (complete h /\ all_settled h).
Proof. pose proof (run_cancelled o ges) as R. unfold cancelled_ok in R. rewrite R, (ri_int _ _ _ _ _ _ I), finished_is. reflexivity. Qed.
Lemma timer_is : c_timer c = true <-> ~ interrupted h /\ ~ complete h.
Proof.
  pose proof (ci_run o Hopt ges) as CI0. pose proof (ci_timer _ _ CI0) as T1. pose proof (ci_timer' _ _ CI0) as T2. split.
  - intros T. specialize (T1 T). pose proof (proj1 (T2 T1) T) as N. rewrite complete_is. split; [|exact N].
    intros J. rewrite (proj2 cancelled_is) in T1; [discriminate|]. now left.
  - intros [N1 N2]. destruct (c_cancelled c) eqn:E.
    + apply cancelled_is in E. tauto.
    + apply T2; [reflexivity|]. now rewrite <- complete_is.
Qed.
Lemma over_is : g_ended c = true <-> over h.
Proof.
  unfold g_ended. rewrite !andb_true_iff, negb_true_iff, cancelled_is. unfold PingRunSpec.over. split.
  - intros [[C T] P]. assert (E : c_pending c = []) by (destruct (c_pending c); [reflexivity|discriminate]). apply none_pending in E. tauto.
  - intros [C A]. split; [split|].
    + tauto.
    + destruct (c_timer c) eqn:T; [|reflexivity]. apply timer_is in T. tauto.
    + apply none_pending in A. now rewrite A.
Qed.
Lemma summary_is : summary (measured h) (printSummary (stats_of (c_hist c))).
Proof.
  rewrite <- (ri_outs _ _ _ _ _ _ I). apply summary_outcomes, summary_ok, (run_plausible o Hopt). exact (ri_measurable _ _ _ _ _ _ I L).
Qed.
Lemma report_is : report u (measured h) (printFull u (stats_of (c_hist c))).
Proof.
  rewrite <- (ri_outs _ _ _ _ _ _ I). apply report_outcomes, report_ok, (run_plausible o Hopt). exact (ri_measurable _ _ _ _ _ _ I L).
Qed.
End Facts.

(** ** One step *)
Lemma trace_data k rtt c : (k < 2 ^ 64)%N -> (rtt < 9223372036854775808)%N -> line u c (GData k rtt) (trace u c (GData k rtt)).
Proof. intros H1 H2. destruct (trace_line u c (GData k rtt)) as [[_ E]|[_ E]]; [split; assumption|discriminate|exact E]. Qed.
Lemma trace_nack k rtt c : (k < 2 ^ 64)%N -> (rtt < 9223372036854775808)%N -> line u c (GNack k rtt) (trace u c (GNack k rtt)).
Proof. intros H1 H2. destruct (trace_line u c (GNack k rtt)) as [[_ E]|[_ E]]; [split; assumption|discriminate|exact E]. Qed.
Lemma trace_timeout k c : (k < 2 ^ 64)%N -> line u c (GTimeout k) (trace u c (GTimeout k)).
Proof. intros H1. destruct (trace_line u c (GTimeout k)) as [[_ E]|[_ E]]; [exact H1|discriminate|exact E]. Qed.
Lemma other_reason k rtt l c c' : line u c (GData k rtt) l -> line u c' (GData k rtt) l.
Proof. intros H. inversion H. now apply line_data. Qed.
Lemma other_reason' k l c c' : line u c (GTimeout k) l -> line u c' (GTimeout k) l.
Proof. intros H. inversion H. now apply line_timeout. Qed.

Section Step.
Variables (t0 tl : Z) (es : list (Z * ping_happens)) (h : notes) (r : ping_running) (ges : list gevent) (t : Z).
Hypothesis I : RI t0 tl es h r ges.
Hypothesis L : Z.of_nat (length es) + 1 < 1000000000.
Hypothesis Ht : tl <= t < 2 ^ 63.
Notation c := (g_run o ges).
Lemma Les : Z.of_nat (length es) < 1000000000. Proof. lia. Qed.
Notation F lemma := (lemma t0 tl es h r ges I Les) (only parsing).
Notation F0 lemma := (lemma t0 tl es h r ges I) (only parsing).
Hypothesis R : ~ over h.

(** nothing *)
Lemma ri_nothing x : next h t x [] -> RI t0 t (es ++ [(t, x)]) h r ges.
Proof.
  intros Nx. destruct I. split; auto.
  - rewrite <- (app_nil_r h). exact (Pg_next _ _ _ _ _ _ _ _ _ [] ri_pinging0 R Nx).
  - rewrite app_length. lia.
  - eapply Forall_impl; [|exact ri_clock0]. cbn. lia.
Qed.
Lemma sent_before t1 k : In (t1, NSent k) h -> 0 <= t1 <= t.
Proof. intros J. pose proof (ri_clock _ _ _ _ _ _ I) as C. rewrite Forall_forall in C. specialize (C _ J). cbn in C. lia. Qed.
Lemma known k t1 : waiting h k t1 -> (k < 2 ^ 64)%N /\ sent_time r k = t1 /\ 0 <= t1 <= t.
Proof.
  intros [J S]. split; [|split].
  - apply (sent_u64 o Hopt ges k). apply (F0 sent_is). eauto.
  - rewrite (F0 sent_time_is). exact (F sent_at_is _ _ J).
  - exact (sent_before _ _ J).
Qed.
(** an outcome *)
Lemma ri_answer k t1 x nt ob ge l :
  waiting h k t1 -> next h t x [nt] ->
  g_step o c ge = c_answer k ob c -> okev ge -> ge <> GeInterrupt -> outcomes [ob] = [ob] -> sent_seqs [ob] = [] ->
  own_outcome (h ++ [(t, nt)]) (t, nt) = [ob] -> sent [(t, nt)] = [] -> (forall s, ~ In (s, NInterrupt) [(t, nt)]) ->
  (forall out, prints h out -> prints (h ++ [(t, nt)]) (out ++ stamp_text stamp a t ++ l)) ->
  RI t0 t (es ++ [(t, x)]) (h ++ [(t, nt)])
     (PingRunning (g_step o (gr_client r) ge) (gr_times r) (gr_due r) (gr_wire r) (gr_out r ++ stamp_text stamp a t ++ l) None) (ges ++ [ge]).
Proof.
  intros W Nx Eg Og Ng Eo Es Eown Esn Eint Hp.
  assert (P : existsb (N.eqb k) (c_pending c) = true) by (apply (F pending_is); eauto).
  destruct (answer_hist c k ob P) as (l' & Eh & El1 & El2).
  pose proof (F0 settled_sent) as SS. destruct I.
  assert (Ec : g_run o (ges ++ [ge]) = c_answer k ob c) by (rewrite run_snoc; exact Eg).
  split; cbn [gr_client gr_times gr_due gr_wire gr_out gr_failed]; rewrite ?Ec.
  - exact (Pg_next _ _ _ _ _ _ _ _ _ [nt] ri_pinging0 R Nx).
  - rewrite ri_client0. exact Eg.
  - rewrite !app_length. cbn. lia.
  - apply Forall_app. split; [assumption|]. now repeat constructor.
  - rewrite Eh. change (ob :: l') with ([ob] ++ l'). rewrite !PingProofs.sent_app, Es, El2, ri_sent0, sent_app', Esn. now rewrite !app_nil_r.
  - rewrite Eh. change (ob :: l') with ([ob] ++ l'). unfold outcomes in *. rewrite !filter_app, Eo, El1, ri_outs0, measured_snoc, Eown by exact SS.
    now rewrite app_nil_r.
  - rewrite in_app_iff, ri_int0. unfold interrupted. split.
    + intros [(s & J)|[J|[]]]; [|congruence]. exists s. apply in_or_app. now left.
    + intros (s & J). apply in_app_or in J as [J|J]; [eauto|]. now destruct (Eint s).
  - rewrite ri_times0, sent_app', Esn, app_nil_r. reflexivity.
  - destruct ri_due0 as [D1 (t2 & k2 & D2 & D3)]. split.
    + intros t3 k3 J. apply (D1 t3 k3). apply in_app_or in J as [J|[J|[]]]; [exact J|].
      exfalso. injection J as -> ->. discriminate Esn.
    + exists t2, k2. split; [apply in_or_app; now left|exact D3].
  - rewrite ri_wire0. unfold PingRunSpec.packets. now rewrite sent_app', Esn, app_nil_r.
  - destruct ri_prints0 as (out & Eout & Pout). exists (out ++ stamp_text stamp a t ++ l). split; [|now apply Hp].
    rewrite Eout. now rewrite !app_assoc.
  - reflexivity.
  - apply Forall_app. split; [eapply Forall_impl; [|exact ri_clock0]; cbn; lia|]. repeat constructor; cbn; [|lia].
    pose proof (known k t1 W). lia.
Qed.
(** a ping *)
Lemma ri_ping : ~ interrupted h -> ~ complete h -> (forall t1 k1, In (t1, NSent k1) h -> t1 + ms (ga_interval a) <= t) ->
  can_send (number (length (sent h))) -> gr_due r <= t ->
  RI t0 t (es ++ [(t, PhTimer)]) (h ++ [(t, NSent (number (length (sent h))))])
     (gr_perform nonce send_error o a t r) (ges ++ [GeTimer]).
Proof.
  intros N1 N2 Hdue Hs Hd. set (k := number (length (sent h))) in *.
  assert (Tm : c_timer c = true) by (apply (F timer_is); auto).
  assert (Ek : c_nextSeq c = k).
  { rewrite (ci_next _ _ (ci_run o Hopt ges)), (F0 count_is), Nat2Z.id. apply seq_number. }
  assert (Ec : g_run o (ges ++ [GeTimer]) = performPing o c) by (rewrite run_snoc; cbn [g_step]; now rewrite Tm).
  destruct (perform_hist o Hopt c) as (l' & Eh & El1 & El2).
  { intros E. apply N2. now apply (F0 complete_is). }
  { intros Hp. exact (ci_bound _ _ (ci_run o Hopt ges) Hp). }
  assert (Ep : ping_packet nonce o (ga_timeout a) k = Some (ping_wire k)) by (destruct (packet_spec k) as [[_ E]|[E _]]; [exact E|contradiction]).
  pose proof (F0 settled_sent) as SS. pose proof sent_before as SB. destruct I.
  unfold gr_perform. rewrite ri_client0, Ek, Ep. rewrite Ek in Eh.
  split; cbn [gr_client gr_times gr_due gr_wire gr_out gr_failed]; rewrite ?Ec.
  - exact (Pg_next _ _ _ _ _ _ _ _ _ [NSent k] ri_pinging0 R (Nx_ping _ _ _ _ _ _ N1 N2 Hdue Hs)).
  - reflexivity.
  - rewrite !app_length. cbn. lia.
  - apply Forall_app. split; [assumption|]. now repeat constructor.
  - rewrite Eh. change (GInterest k :: l') with ([GInterest k] ++ l'). rewrite !PingProofs.sent_app, El2, ri_sent0, sent_app', map_app. now rewrite app_nil_r.
  - rewrite Eh. change (GInterest k :: l') with ([GInterest k] ++ l'). unfold outcomes in *. rewrite !filter_app, El1, ri_outs0, measured_snoc by exact SS.
    cbn. now rewrite !app_nil_r.
  - rewrite in_app_iff, ri_int0. unfold interrupted. split.
    + intros [(s & J)|[J|[]]]; [|discriminate]. exists s. apply in_or_app. now left.
    + intros (s & J). apply in_app_or in J as [J|[J|[]]]; [eauto|discriminate].
  - now rewrite ri_times0, sent_app', map_app.
  - split.
    + intros t3 k3 J. apply in_app_or in J as [J|[J|[]]]; [apply SB in J; unfold ms; lia|]. injection J as -> ->. unfold ms. lia.
    + exists t, k. split; [apply in_or_app; right; now left|reflexivity].
  - rewrite ri_wire0. unfold PingRunSpec.packets. now rewrite sent_app', map_app.
  - destruct ri_prints0 as (out & Eout & Pout). exists out. split; [exact Eout|]. now apply Pr_sent.
  - reflexivity.
  - destruct ri_due0 as [_ (t2 & k2 & J2 & _)]. apply SB in J2.
    apply Forall_app. split; [eapply Forall_impl; [|exact ri_clock0]; cbn; lia|]. repeat constructor; cbn; lia.
Qed.
(** a note without outcome *)
Lemma ri_note x nt ge extra : next h t x [nt] -> (nt = NInterrupt /\ ge = GeInterrupt /\ extra = [] \/ nt = NSummary /\ ge = GeQuit /\ summary (measured h) extra) ->
  RI t0 t (es ++ [(t, x)]) (h ++ [(t, nt)])
     (PingRunning (g_step o (gr_client r) ge) (gr_times r) (gr_due r) (gr_wire r) (gr_out r ++ extra) None) (ges ++ [ge]).
Proof.
  intros Nx Hnt. pose proof (F0 settled_sent) as SS. pose proof sent_before as SB. destruct I.
  assert (Eh : c_hist (g_run o (ges ++ [ge])) = c_hist c).
  { rewrite run_snoc. destruct Hnt as [(_ & -> & _)|(_ & -> & _)]; cbn [g_step]; [|reflexivity]. now destruct (c_cancelled c). }
  assert (Esn : sent [(t, nt)] = []) by (destruct Hnt as [(-> & _)|(-> & _)]; reflexivity).
  assert (Eown : own_outcome (h ++ [(t, nt)]) (t, nt) = []) by (destruct Hnt as [(-> & _)|(-> & _)]; reflexivity).
  split; cbn [gr_client gr_times gr_due gr_wire gr_out gr_failed]; rewrite ?Eh.
  - exact (Pg_next _ _ _ _ _ _ _ _ _ [nt] ri_pinging0 R Nx).
  - now rewrite ri_client0, run_snoc.
  - rewrite !app_length. cbn. lia.
  - apply Forall_app. split; [assumption|]. repeat constructor. destruct Hnt as [(_ & -> & _)|(_ & -> & _)]; exact Logic.I.
  - now rewrite ri_sent0, sent_app', Esn, app_nil_r.
  - now rewrite ri_outs0, measured_snoc, Eown, app_nil_r by exact SS.
  - rewrite in_app_iff, ri_int0. unfold interrupted. split.
    + intros [(s & J)|[J|[]]]; [exists s; apply in_or_app; now left|]. exists t. apply in_or_app. right. left.
      destruct Hnt as [(-> & _)|(_ & -> & _)]; [reflexivity|discriminate].
    + intros (s & J). apply in_app_or in J as [J|[J|[]]]; [eauto|]. destruct Hnt as [(_ & -> & _)|(-> & _)]; [right; now left|discriminate].
  - now rewrite ri_times0, sent_app', Esn, app_nil_r.
  - destruct ri_due0 as [D1 (t2 & k2 & D2 & D3)]. split.
    + intros t3 k3 J. apply (D1 t3 k3). apply in_app_or in J as [J|[J|[]]]; [exact J|].
      exfalso. injection J as -> ->. discriminate Esn.
    + exists t2, k2. split; [apply in_or_app; now left|exact D3].
  - rewrite ri_wire0. unfold PingRunSpec.packets. now rewrite sent_app', Esn, app_nil_r.
  - destruct ri_prints0 as (out & Eout & Pout). exists (out ++ extra). split; [rewrite Eout; now rewrite app_assoc|].
    destruct Hnt as [(-> & _ & ->)|(-> & _ & Hs)]; [rewrite app_nil_r; now apply Pr_interrupt|now apply Pr_summary].
  - reflexivity.
  - destruct ri_due0 as [_ (t2 & k2 & J2 & _)]. apply SB in J2.
    apply Forall_app. split; [eapply Forall_impl; [|exact ri_clock0]; cbn; lia|]. repeat constructor; cbn; lia.
Qed.

Definition breaks (what : text) (x : ping_happens) : Prop :=
  x = PhFails what \/
  x = PhTimer /\ what = send_error (number (length (sent h))) /\ ~ can_send (number (length (sent h))) /\
  ~ interrupted h /\ ~ complete h /\ (forall t1 k1, In (t1, NSent k1) h -> t1 + ms (ga_interval a) <= t).
Lemma ri_step x :
  (exists h' ges', RI t0 t (es ++ [(t, x)]) h' (step r (t, x)) ges') \/
  (exists what, breaks what x /\ gr_failed (step r (t, x)) = Some what /\ gr_wire (step r (t, x)) = gr_wire r /\ gr_out (step r (t, x)) = gr_out r).
Proof.
  assert (NE : g_ended (gr_client r) = false).
  { rewrite (ri_client _ _ _ _ _ _ I). destruct (g_ended c) eqn:E; [|reflexivity]. apply (F over_is) in E. contradiction. }
  unfold gr_step. rewrite (ri_failed _ _ _ _ _ _ I), NE. cbn [fst snd].
  assert (Dint : {interrupted h} + {~ interrupted h}).
  { destruct (in_dec (fun x y : gevent => ltac:(decide equality; apply N.eq_dec)) GeInterrupt ges) as [J|J]; [left|right]; now rewrite <- (ri_int _ _ _ _ _ _ I). }
  assert (Ecn : gr_client r = c) by exact (ri_client _ _ _ _ _ _ I).
  assert (Estray : forall k, existsb (N.eqb k) (c_pending c) = false -> forall t1, ~ waiting h k t1).
  { intros k E t1 W. rewrite (proj2 (F pending_is k)) in E; [discriminate|eauto]. }
  destruct x as [|k|k code|k| | |what].
  - rewrite Ecn. destruct (c_timer c) eqn:Tm; cbn [andb].
    2: { left. exists h, ges. apply ri_nothing, Nx_no_ping. destruct Dint as [D|D]; [now left|]. right. left.
         apply (F0 complete_is). destruct (Z.eq_dec (c_nSent c) (g_nPings o)) as [E|E]; [exact E|].
         rewrite (proj2 (F timer_is)) in Tm; [discriminate|]. split; [exact D|]. now rewrite (F0 complete_is). }
    apply (F timer_is) in Tm as [N1 N2]. destruct (Z.leb_spec (gr_due r) t) as [Hd|Hd].
    2: { left. exists h, ges. apply ri_nothing, Nx_no_ping. destruct (ri_due _ _ _ _ _ _ I) as [_ (t2 & k2 & J2 & E2)].
         right. right. exists t2, k2. split; [exact J2|lia]. }
    assert (Hdue : forall t1 k1, In (t1, NSent k1) h -> t1 + ms (ga_interval a) <= t).
    { intros t1 k1 J. pose proof (proj1 (ri_due _ _ _ _ _ _ I) t1 k1 J). lia. }
    destruct (packet_spec (number (length (sent h)))) as [[Hs _]|[Hs Ep]].
    + left. eexists _, _. exact (ri_ping N1 N2 Hdue Hs Hd).
    + right. exists (send_error (number (length (sent h)))). split; [right; auto 10|].
      unfold gr_perform. rewrite Ecn, (ci_next _ _ (ci_run o Hopt ges)), (F0 count_is), Nat2Z.id.
      change (seq_at o (length (sent h))) with (number (length (sent h))). rewrite Ep. auto.
  - left. cbn zeta. unfold gr_answer. rewrite Ecn. destruct (existsb (N.eqb k) (c_pending c)) eqn:E.
    + apply (F pending_is) in E as (t1 & W). destruct (known _ _ W) as (Ku & -> & K1).
      eexists _, _. rewrite <- Ecn. apply (ri_answer k t1 _ (NData k) (GData k (Z.to_N (t - t1))) _ _ W); try reflexivity; try discriminate.
      * exact (Nx_data _ _ _ _ _ _ _ _ W).
      * cbn. lia.
      * unfold own_outcome. cbn [fst snd]. destruct W as [W _].
        rewrite sent_at_app, (F sent_at_is _ _ W); [reflexivity|]. apply in_map_iff. exists (t1, k). split; [reflexivity|]. now apply in_sent.
      * intros s [J|[]]. discriminate.
      * intros out Pout. apply (Pr_data _ _ _ _ _ _ _ t1); [exact Pout|apply W|lia|]. eapply other_reason, trace_data; [exact Ku|lia].
    + exists h, ges. apply ri_nothing, (Nx_stray _ _ _ _ _ _ _ k); [left; now left|]. now apply Estray.
  - left. cbn zeta. unfold gr_answer. rewrite Ecn. destruct (existsb (N.eqb k) (c_pending c)) eqn:E.
    + apply (F pending_is) in E as (t1 & W). destruct (known _ _ W) as (Ku & -> & K1).
      eexists _, _. rewrite <- Ecn. apply (ri_answer k t1 _ (NNack k code) (GNack k (Z.to_N (t - t1))) _ _ W); try reflexivity; try discriminate.
      * exact (Nx_nack _ _ _ _ _ _ _ _ _ W).
      * cbn. lia.
      * unfold own_outcome. cbn [fst snd]. destruct W as [W _].
        rewrite sent_at_app, (F sent_at_is _ _ W); [reflexivity|]. apply in_map_iff. exists (t1, k). split; [reflexivity|]. now apply in_sent.
      * intros s [J|[]]. discriminate.
      * intros out Pout. apply (Pr_nack _ _ _ _ _ _ _ _ t1); [exact Pout|apply W|lia|]. apply trace_nack; [exact Ku|lia].
    + exists h, ges. apply ri_nothing, (Nx_stray _ _ _ _ _ _ _ k); [right; eauto|]. now apply Estray.
  - left. unfold gr_answer. rewrite Ecn. destruct (existsb (N.eqb k) (c_pending c)) eqn:E.
    + apply (F pending_is) in E as (t1 & W). destruct (known _ _ W) as (Ku & Et & K1). rewrite Et.
      destruct (Z.leb_spec (t1 + ga_timeout a * 1000000) t) as [D|D].
      * eexists _, _. rewrite <- Ecn. apply (ri_answer k t1 _ (NTimeout k) (GTimeout k) _ _ W); try reflexivity; try discriminate.
        -- exact (Nx_timeout _ _ _ _ _ _ _ _ W D).
        -- intros s [J|[]]. discriminate.
        -- intros out Pout. apply Pr_timeout; [exact Pout|]. eapply other_reason', trace_timeout, Ku.
      * exists h, ges. apply ri_nothing. exact (Nx_early _ _ _ _ _ _ _ _ W D).
    + exists h, ges. replace (if sent_time r k + ga_timeout a * 1000000 <=? t then r else r) with r by now destruct (_ <=? _).
      apply ri_nothing, (Nx_stray _ _ _ _ _ _ _ k); [left; right; now left|]. now apply Estray.
  - left. destruct Dint as [D|D].
    + exists h, ges. replace (PingRunning _ _ _ _ _ _) with r; [now apply ri_nothing, Nx_interrupt_again|].
      cbn [g_step]. rewrite Ecn, (proj2 (F cancelled_is)) by now left. rewrite <- Ecn. pose proof (ri_failed _ _ _ _ _ _ I) as E. destruct r. cbn in *. now rewrite E.
    + eexists _, _. rewrite <- (app_nil_r (gr_out r)) at 1. apply (ri_note _ NInterrupt); [now apply Nx_interrupt|auto].
  - left. destruct Dint as [D|D].
    + exists h, ges. replace (PingRunning _ _ _ _ _ _) with r; [now apply ri_nothing, Nx_quit_ignored|].
      rewrite Ecn, (proj2 (F cancelled_is)) by now left. rewrite app_nil_r, <- Ecn. pose proof (ri_failed _ _ _ _ _ _ I) as E. destruct r. cbn in *. now rewrite E.
    + assert (Cn : c_cancelled c = false).
      { destruct (c_cancelled c) eqn:E; [|reflexivity]. apply (F cancelled_is) in E as [E|[E1 E2]]; [contradiction|]. destruct R. split; [now right|exact E2]. }
      eexists _, _. rewrite Ecn, Cn. change c with (g_step o c GeQuit) at 1. rewrite <- Ecn.
      apply (ri_note _ NSummary); [now apply Nx_quit|]. right. split; [reflexivity|]. split; [reflexivity|]. rewrite Ecn. exact (F summary_is).
  - right. exists what. split; [now left|]. auto.
Qed.
End Step.

(** ** Runs *)
Definition run (t0 : Z) (es : list (Z * ping_happens)) : ping_running :=
  fold_left step es
    (gr_perform nonce send_error o a t0 (PingRunning (Client 0 (g_startSeq o) 0 false [] false []) [] 0 [] (str "PING " ++ u ++ nl) None)).
Lemma run_app t0 es e : run t0 (es ++ [e]) = step (run t0 es) e.
Proof. unfold run. now rewrite fold_left_app. Qed.
Definition last_time (t0 : Z) (es : list (Z * ping_happens)) : Z := last (map fst es) t0.
Lemma clocked_app t0 es e : clocked t0 (es ++ [e]) -> clocked t0 es /\ last_time t0 es <= fst e < 2 ^ 63.
Proof.
  unfold last_time. revert t0. induction es as [|x es IH]; intros t0; cbn [app clocked map].
  - cbn. lia.
  - intros [H1 H2]. destruct (IH _ H2) as [H3 H4]. split; [auto|].
    destruct es as [|y es]; [exact H4|]. cbn [map] in *. change (last (fst x :: fst y :: map fst es) t0) with (last (fst y :: map fst es) t0).
    assert (G : forall (l : list Z) z d d', last (z :: l) d = last (z :: l) d') by (induction l as [|w l IH']; intros; [reflexivity|]; exact (IH' w d d')).
    now rewrite (G _ _ t0 (fst x)).
Qed.

Lemma ri_start t0 : 0 <= t0 -> can_send (number 0) -> RI t0 t0 [] [(t0, NSent (number 0))] (run t0 []) [].
Proof.
  intros H0 Hs. assert (E0 : number 0 = first) by (unfold PingRunSpec.number; cbn [N.of_nat]; rewrite N.add_0_r; now apply N.mod_small).
  assert (Ep : ping_packet nonce o (ga_timeout a) (number 0) = Some (ping_wire (number 0)))
    by (destruct (packet_spec (number 0)) as [[_ E]|[E _]]; [exact E|contradiction]).
  unfold run. cbn [fold_left]. unfold gr_perform. cbn [gr_client c_nextSeq gr_times gr_wire gr_out]. change (g_startSeq o) with first.
  rewrite E0 in Ep. rewrite Ep.
  destruct (perform_hist o Hopt (Client 0 first 0 false [] false [])) as (l' & Eh & El1 & El2).
  { cbn [c_nSent]. pose proof Hopt as [[H|H] _]; lia. } { cbn [c_nSent]. lia. }
  assert (Ec : c_hist (g_run o []) = GInterest first :: l') by exact Eh.
  split; cbn [gr_client gr_times gr_due gr_wire gr_out gr_failed].
  - now apply Pg_start.
  - reflexivity.
  - reflexivity.
  - constructor.
  - rewrite Ec. change (GInterest first :: l') with ([GInterest first] ++ l'). rewrite PingProofs.sent_app, El2, E0. reflexivity.
  - rewrite Ec. exact El1.
  - split; [intros []|]. intros (s & [J|[]]). discriminate.
  - rewrite E0. reflexivity.
  - split; [|exists t0, (number 0); split; [now left|reflexivity]]. intros t1 k1 [[= -> _]|[]]. unfold ms. lia.
  - rewrite E0. reflexivity.
  - exists []. rewrite app_nil_r. split; [unfold title; now rewrite unlines1, <- app_assoc|].
    exact (Pr_sent _ _ _ [] [] _ _ (Pr_none _ _ _)).
  - reflexivity.
  - repeat constructor; cbn; lia.
Qed.

Lemma run_failed t0 es e w : gr_failed (run t0 es) = Some w -> run t0 (es ++ [e]) = run t0 es.
Proof. intros E. rewrite run_app. unfold gr_step. now rewrite E. Qed.

Definition broke (t0 : Z) (es : list (Z * ping_happens)) : Prop :=
  exists es1 t x es2 what h out, es = es1 ++ (t, x) :: es2 /\ pinging t0 es1 h /\ ~ over h /\ prints h out /\ breaks h t what x /\
    gr_failed (run t0 es) = Some what /\ gr_wire (run t0 es) = packets h /\ gr_out (run t0 es) = title u ++ out.
Lemma run_spec t0 es : 0 <= t0 -> clocked t0 es -> Z.of_nat (length es) < 1000000000 -> can_send (number 0) ->
  (exists h ges, RI t0 (last_time t0 es) es h (run t0 es) ges) \/ broke t0 es.
Proof.
  intros H0 C Ln Hs. induction es as [|[t x] es IH] using rev_ind; [left; eexists _, _; now apply ri_start|].
  apply clocked_app in C as [C Ht]. cbn [fst] in Ht. rewrite app_length in Ln. cbn [length] in Ln.
  assert (El : last_time t0 (es ++ [(t, x)]) = t) by (unfold last_time; rewrite map_app; apply last_last).
  destruct IH as [(h & ges & I)|B]; [exact C|lia|..].
  - destruct (g_ended (gr_client (run t0 es))) eqn:E.
    + left. exists h, ges. rewrite El, run_app. unfold gr_step. rewrite (ri_failed _ _ _ _ _ _ I), E.
      rewrite (ri_client _ _ _ _ _ _ I) in E. apply (over_is _ _ _ _ _ _ I ltac:(lia)) in E. destruct I. split; auto.
      * now apply Pg_over.
      * rewrite app_length. lia.
      * eapply Forall_impl; [|exact ri_clock0]. cbn. lia.
    + assert (NO : ~ over h).
      { rewrite (ri_client _ _ _ _ _ _ I) in E. intros O. apply (over_is _ _ _ _ _ _ I ltac:(lia)) in O. congruence. }
      rewrite El. destruct (ri_step t0 _ es h _ ges t I ltac:(lia) Ht NO x) as [(h' & ges' & I')|(what & B & F1 & F2 & F3)].
      * left. exists h', ges'. rewrite run_app. exact I'.
      * right. destruct (ri_prints _ _ _ _ _ _ I) as (out & Eo & Po).
        exists es, t, x, [], what, h, out. rewrite run_app, F2, F3, Eo. repeat split; auto.
        -- exact (ri_pinging _ _ _ _ _ _ I).
        -- exact (ri_wire _ _ _ _ _ _ I).
  - right. destruct B as (es1 & t' & x' & es2 & what & h & out & E & P1 & P2 & P3 & P4 & P5 & P6 & P7).
    exists es1, t', x', (es2 ++ [(t, x)]), what, h, out. rewrite (run_failed _ _ _ _ P5). rewrite E at 1. rewrite <- app_assoc. auto 10.
Qed.

Lemma all_data_is t0 tl es h r ges : RI t0 tl es h r ges -> Z.of_nat (length es) < 1000000000 -> all_settled h ->
  ((n_received (st_count (stats_of (c_hist (g_run o ges)))) =? n_sent (st_count (stats_of (c_hist (g_run o ges))))) = true <-> all_data h).
Proof.
  intros I Ln A. rewrite st_count_eq. cbn [n_received n_sent].
  rewrite Z.eqb_eq. set (l := c_hist (g_run o ges)).
  assert (Dn : NoDup (settled_seqs l)).
  { pose proof (sent_few' o ges (ges_few _ _ _ _ _ _ I Ln)). pose proof (sent_nodup o Hopt ges ltac:(lia)) as D.
    exact (nodup_app_r _ _ (Permutation_NoDup (ci_perm _ _ (ci_run o Hopt ges)) D)). }
  assert (Dt : forall k, In k (data_seqs l) <-> exists t, In (t, NData k) h).
  { intros k. rewrite <- in_data, <- (ri_outs _ _ _ _ _ _ I), data_outcomes. reflexivity. }
  assert (St : forall k, In k (settled_seqs l) <-> settled h k) by (intros k; apply (settled_is _ _ _ _ _ _ I)).
  unfold settled_seqs in *. rewrite app_length. split.
  - intros E. assert (E' : nack_seqs l ++ timeout_seqs l = []) by (apply length_zero_iff_nil; lia).
    intros t k J. apply Dt. specialize (A t k J). apply St in A. rewrite E', app_nil_r in A. exact A.
  - intros AD. destruct (nack_seqs l ++ timeout_seqs l) as [|k rest] eqn:E; [cbn; lia|]. exfalso.
    assert (J : In k (data_seqs l)).
    {
      assert (S : In k (map snd (sent h))) by (apply (settled_sent _ _ _ _ _ _ I), St, in_or_app; right; now left).
      apply in_map_iff in S as ([t k'] & <- & S). apply in_sent in S. apply Dt, (AD t), S. }
    apply in_split in J as (l1 & l2 & El). rewrite El, <- app_assoc in Dn. cbn in Dn. apply NoDup_remove_2 in Dn. apply Dn.
    rewrite !in_app_iff. right. right. now left.
Qed.

Lemma ping_go_spec t0 es : plausible_run t0 es ->
  PingRunSpec.ping_run nonce stamp send_error a prefix u first t0 es (gr_result u (run t0 es)).
Proof.
  intros (H0 & C & Ln). destruct (packet_spec (number 0)) as [[Hs _]|[Hs Ep]].
  - destruct (run_spec t0 es H0 C Ln Hs) as [(h & ges & I)|B].
    + unfold gr_result. rewrite (ri_failed _ _ _ _ _ _ I), (ri_client _ _ _ _ _ _ I), (ri_wire _ _ _ _ _ _ I).
      destruct (ri_prints _ _ _ _ _ _ I) as (out & -> & Po).
      pose proof (over_is _ _ _ _ _ _ I Ln) as O. destruct (g_ended (g_run o ges)).
      * assert (O' : over h) by now apply O. pose proof (all_data_is _ _ _ _ _ _ I Ln (proj2 O')) as AD. cbn zeta. rewrite <- app_assoc.
        destruct (_ =? _).
        -- apply Pn_success; [exact (ri_pinging _ _ _ _ _ _ I)|exact O'|exact Po|exact (report_is _ _ _ _ _ _ I Ln)|now apply AD].
        -- apply Pn_losses; [exact (ri_pinging _ _ _ _ _ _ I)|exact O'|exact Po|exact (report_is _ _ _ _ _ _ I Ln)|].
           intros A. apply AD in A. discriminate.
      * apply Pn_running; [exact (ri_pinging _ _ _ _ _ _ I)| |exact Po]. intros O'. apply O in O'. discriminate.
    + destruct B as (es1 & t & x & es2 & what & h & out & E & P1 & P2 & P3 & P4 & P5 & P6 & P7).
      unfold gr_result. rewrite P5, P6, P7.
      replace (str "ERROR: " ++ what ++ nl) with (unlines [str "ERROR: " ++ what]) by (now rewrite unlines1, <- app_assoc).
      exact (Pn_broken _ _ _ _ _ _ _ _ _ es1 es2 t x what h out E P1 P2 P3 P4).
  - assert (E0 : number 0 = first) by (unfold PingRunSpec.number; cbn [N.of_nat]; rewrite N.add_0_r; now apply N.mod_small).
    assert (E : run t0 es = PingRunning (Client 0 first 0 false [] false []) [] 0 [] (str "PING " ++ u ++ nl) (Some (send_error (number 0)))).
    { induction es as [|e es IH] using rev_ind.
      - unfold run, gr_perform. cbn [fold_left gr_client c_nextSeq gr_times gr_due gr_wire gr_out]. change (g_startSeq o) with first.
        rewrite E0 in Ep. rewrite Ep, E0. reflexivity.
      - apply clocked_app in C as [C _]. rewrite app_length in Ln. cbn in Ln. rewrite run_app, IH by (auto; lia). reflexivity. }
    rewrite E. unfold gr_result. cbn [gr_failed gr_wire gr_out].
    replace (str "ERROR: " ++ send_error (number 0) ++ nl) with (unlines [str "ERROR: " ++ send_error (number 0)]) by (now rewrite unlines1, <- app_assoc).
    replace (str "PING " ++ u ++ nl) with (title u) by (unfold title; now rewrite unlines1, <- app_assoc).
    now apply Pn_not_sent.
Qed.
End Run.
