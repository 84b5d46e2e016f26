(** Proofs about the numbers in the texts of ndncatchunks, and about the log files. *)
From Verif Require Import Base BaseFacts PipelineBase PipelineSpec AdaptiveModel TlvModel PingModel Double PingStatsProofs DumpModel DumpSpec DumpProofs2
  ThroughputModel ThroughputProofs DecimalModel DecimalSpec DecimalProofs PingTextSpec PingTextProofs ChunksTextModel ChunksTextSpec ChunksTextProofs.
From Coq Require Import String Reals Lra Lia Sorted.
From Coq Require Import List.
From Flocq Require Import Core BinarySingleNaN.
Import ListNotations.
Local Open Scope R_scope.
Local Open Scope list_scope.

(** * Numbers *)
Lemma quotient_ok a b : (0 <= a <= 18446744073709551616)%Z -> (0 < b <= 9007199254740992)%Z ->
  finite (quotient a b) = true /\ val (quotient a b) = rnd (rnd (IZR a) / IZR b) /\
  (a = 0%Z /\ val (quotient a b) = 0 \/ bpow radix2 (-54) <= val (quotient a b)) /\ val (quotient a b) <= bpow radix2 64 /\
  (1 - u) ^ 2 * (IZR a / IZR b) <= val (quotient a b) <= (1 + u) ^ 2 * (IZR a / IZR b).
Proof.
  intros Ha Hb. destruct (f_of_Z_ok a) as [H1 H2]; [lia|]. destruct (f_of_Z_exact b) as [G1 G2]; [lia|].
  unfold quotient. set (v := f_of_Z a) in *.
  assert (B1 : 1 <= IZR b) by (apply IZR_le; lia).
  assert (B2 : IZR b <= bpow radix2 53) by (change (bpow radix2 53) with (IZR 9007199254740992); apply IZR_le; lia).
  assert (Hv : 0 <= val v <= bpow radix2 64).
  { rewrite H2. split; [apply rnd_ge0; apply IZR_le; lia|]. rewrite <- (rnd_bpow 64) by lia. apply rnd_le.
    change (bpow radix2 64) with (IZR 18446744073709551616). apply IZR_le. lia. }
  assert (IB : 0 < / IZR b <= 1). { split; [apply Rinv_0_lt_compat; lra|]. rewrite <- Rinv_1. apply Rinv_le; lra. }
  assert (Hq : 0 <= val v / IZR b <= bpow radix2 64).
  { split; [apply Rmult_le_pos; lra|]. rewrite <- (Rmult_1_r (bpow radix2 64)). apply Rmult_le_compat; lra. }
  assert (Hsm : small (val v / val (f_of_Z b))).
  { rewrite G2. unfold small. rewrite Rabs_pos_eq by apply Hq. eapply Rle_trans; [apply Hq|]. apply bpow_le. lia. }
  destruct (fdiv_ok v (f_of_Z b) H1) as [E1 E2]; [rewrite G2; lra|exact Hsm|]. rewrite G2 in E2.
  split; [exact E1|]. rewrite E2. split; [now rewrite H2|].
  assert (Hc : a = 0%Z /\ val v / IZR b = 0 \/ bpow radix2 (-54) <= val v / IZR b).
  { destruct (Z.eq_dec a 0) as [Hz|Hz]; [left; split; [exact Hz|]|right].
    - rewrite H2, Hz, rnd_0. unfold Rdiv. ring.
    - assert (1 <= val v). { rewrite H2, <- (rnd_Z 1) by lia. apply rnd_le. apply IZR_le. lia. }
      apply Rle_trans with (/ IZR b); [|rewrite <- (Rmult_1_l (/ IZR b)); apply Rmult_le_compat_r; lra].
      apply Rle_trans with (/ bpow radix2 53); [rewrite <- bpow_opp; apply bpow_le; lia|]. apply Rinv_le; lra. }
  split; [|split].
  - destruct Hc as [[Hz ->]|Hc]; [left; split; [exact Hz|apply rnd_0]|right]. rewrite <- (rnd_bpow (-54)) by lia. now apply rnd_le.
  - rewrite <- (rnd_bpow 64) by lia. now apply rnd_le.
  - assert (R1 : (val v / IZR b) * (1 - u) <= rnd (val v / IZR b) <= (val v / IZR b) * (1 + u)).
    { apply rnd_rel_pos. destruct Hc as [[_ Hc]|Hc]; [now left|right]. eapply Rle_trans; [|exact Hc]. apply bpow_le. lia. }
    assert (R2 : IZR a * (1 - u) <= val v <= IZR a * (1 + u)).
    { rewrite H2. apply rnd_rel_pos. destruct (Z.eq_dec a 0) as [->|Hz]; [now left|right].
      apply Rle_trans with 1; [change 1 with (bpow radix2 0); apply bpow_le; lia|]. apply IZR_le. lia. }
    pose proof u_pos. pose proof u_half. cbn [pow]. split.
    + eapply Rle_trans; [|apply R1].
      replace ((1 - u) * ((1 - u) * 1) * (IZR a / IZR b)) with (IZR a * (1 - u) / IZR b * (1 - u)) by (field; lra).
      apply Rmult_le_compat_r; [lra|]. apply Rmult_le_compat_r; lra.
    + eapply Rle_trans; [apply R1|].
      replace ((1 + u) * ((1 + u) * 1) * (IZR a / IZR b)) with (IZR a * (1 + u) / IZR b * (1 + u)) by (field; lra).
      apply Rmult_le_compat_r; [lra|]. apply Rmult_le_compat_r; lra.
Qed.
Lemma ratio_ge0 a b : (0 <= a)%Z -> (0 < b)%Z -> 0 <= IZR a / IZR b.
Proof. intros. apply Rmult_le_pos; [now apply IZR_le|]. apply Rlt_le, Rinv_0_lt_compat. now apply IZR_lt. Qed.
Lemma quotient_shown a b : (0 <= a <= 18446744073709551616)%Z -> (0 < b <= 9007199254740992)%Z ->
  literal (double_text (quotient a b)) (six_digit (val (quotient a b))) /\
  Rabs (six_digit (val (quotient a b)) - IZR a / IZR b) <= 51 / 10000000 * (IZR a / IZR b).
Proof.
  intros Ha Hb. destruct (quotient_ok a b Ha Hb) as (F & _ & _ & _ & B).
  assert (Hx : 0 <= IZR a / IZR b) by (apply ratio_ge0; lia).
  destruct (shows_close51 (quotient a b) (IZR a / IZR b) F Hx) as (r & L & Hr); [apply pow2_close; [exact Hx|exact B]|].
  pose proof (double_text_literal _ F) as L'. split; [exact L'|]. now rewrite <- (literal_unique _ _ _ L L').
Qed.
Lemma quotient_shows a b : (0 <= a <= 18446744073709551616)%Z -> (0 < b <= 9007199254740992)%Z ->
  shows (double_text (quotient a b)) (51 / 10000000) (IZR a / IZR b).
Proof. intros Ha Hb. destruct (quotient_shown a b Ha Hb) as [H1 H2]. eexists. split; eauto. Qed.
Lemma quotient_le a a' b : (0 <= a <= a')%Z -> (a' <= 18446744073709551616)%Z -> (0 < b <= 9007199254740992)%Z ->
  val (quotient a b) <= val (quotient a' b).
Proof.
  intros H1 H2 H3. destruct (quotient_ok a b) as (_ & -> & _); [lia|lia|]. destruct (quotient_ok a' b) as (_ & -> & _); [lia|lia|].
  apply rnd_le. apply Rmult_le_compat_r; [apply Rlt_le, Rinv_0_lt_compat; apply IZR_lt; lia|]. apply rnd_le. apply IZR_le. lia.
Qed.

(** * Lines *)
Definition shown_time (ns : Z) : R := six_digit (val (quotient ns 1000000000)).
Lemma e9 : 10 ^ 9 = 1000000000. Proof. simpl. lra. Qed.
Lemma e6 : 10 ^ 6 = 1000000. Proof. simpl. lra. Qed.
Lemma cwnd_entry_ok ns w : (0 <= ns < ns_max)%Z -> cwnd_line ns w (shown_time ns) (cwnd_entry ns w).
Proof.
  unfold ns_max. intros H. unfold cwnd_line, cwnd_entry. eexists _, _. split; [reflexivity|].
  destruct (quotient_shown ns 1000000000) as [L B]; [lia|lia|]. rewrite e9. split; [exact L|]. split; [exact B|].
  intros F. now apply double_text_literal.
Qed.
Lemma ms_ok ns : shows_ms (double_text (quotient ns 1000000)) ns.
Proof. unfold shows_ms, ns_max. intros H. rewrite e6. apply quotient_shows; lia. Qed.
Lemma rtt_entry_ok seg rtt var srtt rto : rtt_line seg rtt var srtt rto (rtt_entry seg rtt var srtt rto).
Proof.
  unfold rtt_line, rtt_entry. eexists _, _, _, _, _. split; [reflexivity|]. split.
  - intros H. split; [apply to_string_nonempty|now apply to_string_decimal].
  - repeat split; apply ms_ok.
Qed.

Lemma shown_time_le a b : (0 <= a <= b)%Z -> (b < ns_max)%Z -> shown_time a <= shown_time b.
Proof. unfold ns_max. intros H1 H2. apply six_digit_le. apply quotient_le; lia. Qed.

(** * The files *)
Section K.
Context {W E : Type}.
Variable P : policy W E.
Variable C : aconfig.
Variable cwnd : W -> f64.
Variables rttVar sRtt : E -> Z.
Variable rtts : E -> option (Z * Z * Z).
Variable el : Z -> text.
Notation krun := (k_run P C cwnd rttVar sRtt rtts el).
Notation run := (a_run P C).

Lemma k_snoc es e : krun (es ++ [e]) = k_step P C cwnd rttVar sRtt rtts el (krun es) e.
Proof. unfold k_run. now rewrite fold_left_app. Qed.
Lemma k_pipe_run es : k_pipe (krun es) = run es.
Proof. induction es as [|e es IH] using rev_ind; [reflexivity|]. rewrite k_snoc, a_run_snoc. unfold k_step. cbn. now rewrite IH. Qed.
Lemma new_signals_app (s s' : @astate W E) l : a_tr s' = l ++ a_tr s -> new_signals s s' = rev l.
Proof.
  intros H. unfold new_signals. rewrite H, app_length. replace (length l + length (a_tr s) - length (a_tr s))%nat with (length l) by lia.
  now rewrite firstn_app, Nat.sub_diag, firstn_all, firstn_O, app_nil_r.
Qed.
Lemma rev_windows l : windows (rev l) = rev (windows l).
Proof. unfold windows. induction l as [|o l IH]; [reflexivity|]. cbn [rev filter]. rewrite filter_app, IH. cbn [filter]. destruct o; cbn [rev]; rewrite ?app_nil_r; reflexivity. Qed.
Lemma rev_samples l : samples (rev l) = rev (samples l).
Proof. unfold samples. induction l as [|o l IH]; [reflexivity|]. cbn [rev filter]. rewrite filter_app, IH. cbn [filter]. destruct o; cbn [rev]; rewrite ?app_nil_r; reflexivity. Qed.
Lemma flat_windows (s : @astate W E) l : flat_map (on_cwnd cwnd s) l = flat_map (on_cwnd cwnd s) (windows l).
Proof. unfold windows. induction l as [|o l IH]; [reflexivity|]. cbn [flat_map filter]. destruct o; cbn [on_cwnd app flat_map]; rewrite ?IH; reflexivity. Qed.
Lemma flat_samples (s : @astate W E) l : flat_map (on_rtt P rttVar sRtt s) l = flat_map (on_rtt P rttVar sRtt s) (samples l).
Proof. unfold samples. induction l as [|o l IH]; [reflexivity|]. cbn [flat_map filter]. destruct o; cbn [on_rtt app flat_map]; rewrite ?IH; reflexivity. Qed.

(** one event *)
Lemma grows s e : exists l, a_tr (a_step P C s e) = l ++ a_tr s /\
  (windows l = [] /\ a_cwnd (a_step P C s e) = a_cwnd s \/ windows l = [OWindow (p_floor P (a_cwnd (a_step P C s e)))] /\ a_crashed s = false /\ forall dt, e <> AeTick dt) /\
  (samples l = [] \/ exists seg rtt n, samples l = [ORttSample seg rtt n] /\ a_rtt (a_step P C s e) = p_sample P rtt n (a_rtt s)).
Proof.
  destruct (a_crashed s) eqn:Ec.
  { exists []. unfold a_step. rewrite Ec. auto. }
  assert (HT : (exists dt, e = AeTick dt) \/ forall dt, e <> AeTick dt) by (destruct e; eauto; right; discriminate).
  destruct HT as [[dt ->]|HT].
  { exists []. unfold a_step. rewrite Ec. auto. }
  pose proof (l_step P C s e) as H. destruct e; try (exfalso; eapply HT; reflexivity).
  all: destruct H as (_ & l & H1 & H2 & H3); exists l; split; [exact H1|]; split; [|exact H3]; destruct H2; auto.
Qed.
Lemma cwnd_step es e : (passed es < ns_max)%Z ->
  let s := run es in let s' := run (es ++ [e]) in
  exists new, a_history s' = a_history s ++ new /\
    (windows new = [] /\ a_cwnd s' = a_cwnd s /\ k_cwnd (krun (es ++ [e])) = k_cwnd (krun es) \/
     exists l, windows new = [OWindow (p_floor P (a_cwnd s'))] /\
       k_cwnd (krun (es ++ [e])) = k_cwnd (krun es) ++ l /\ cwnd_line (passed es) (cwnd (a_cwnd s')) (shown_time (passed es)) l).
Proof.
  intros Hp s s'. unfold s'. rewrite a_run_snoc. fold s. destruct (grows s e) as (l & H1 & H2 & _). exists (rev l).
  split; [unfold a_history; rewrite H1; apply rev_app_distr|].
  assert (Hk : k_cwnd (krun (es ++ [e])) = k_cwnd (krun es) ++ flat_map (on_cwnd cwnd (a_step P C s e)) (windows (rev l))).
  { rewrite k_snoc. unfold k_step, k_update. cbn [k_cwnd]. rewrite k_pipe_run. fold s. rewrite (new_signals_app s _ l H1). now rewrite flat_windows. }
  rewrite Hk, rev_windows. destruct H2 as [[H2 H3]|(H2 & H3 & H4)]; rewrite H2; [left|right].
  - split; [reflexivity|]. split; [exact H3|]. apply app_nil_r.
  - eexists. split; [reflexivity|]. split; [reflexivity|]. cbn [flat_map on_cwnd rev app]. rewrite app_nil_r.
    assert (En : a_now (a_step P C s e) = passed es).
    { destruct (now_run P C es) as [Hn|Hn]; fold s in Hn; [|congruence]. rewrite <- Hn. pose proof (l_step P C s e) as HL.
      destruct e; try (exfalso; eapply H4; reflexivity); apply HL. }
    rewrite En. apply cwnd_entry_ok. split; [apply passed_ge0|exact Hp].
Qed.
Lemma rtt_step es e :
  let s := run es in let s' := run (es ++ [e]) in
  exists new, a_history s' = a_history s ++ new /\
    (samples new = [] /\ k_rtt (krun (es ++ [e])) = k_rtt (krun es) \/
     exists seg rtt n l, samples new = [ORttSample seg rtt n] /\ a_rtt s' = p_sample P rtt n (a_rtt s) /\
       k_rtt (krun (es ++ [e])) = k_rtt (krun es) ++ l /\
       rtt_line seg rtt (rttVar (a_rtt s')) (sRtt (a_rtt s')) (p_rto P (a_rtt s')) l).
Proof.
  intros s s'. unfold s'. rewrite a_run_snoc. fold s. destruct (grows s e) as (l & H1 & _ & H2). exists (rev l).
  split; [unfold a_history; rewrite H1; apply rev_app_distr|].
  assert (Hk : k_rtt (krun (es ++ [e])) = k_rtt (krun es) ++ flat_map (on_rtt P rttVar sRtt (a_step P C s e)) (samples (rev l))).
  { rewrite k_snoc. unfold k_step, k_update. cbn [k_rtt]. rewrite k_pipe_run. fold s. rewrite (new_signals_app s _ l H1). now rewrite flat_samples. }
  rewrite Hk, rev_samples. destruct H2 as [H2|(seg & rtt & n & H2 & H3)]; rewrite H2; [left|right].
  - split; [reflexivity|]. apply app_nil_r.
  - exists seg, rtt, n. eexists. split; [reflexivity|]. split; [exact H3|]. split; [reflexivity|].
    cbn [flat_map on_rtt rev app]. rewrite app_nil_r. apply rtt_entry_ok.
Qed.

(** the start *)
Lemma start_tr : exists l, a_tr (doRun P C (a_init P)) = l /\ windows l = [] /\ samples l = [] /\ a_cwnd (doRun P C (a_init P)) = p_initW P.
Proof. destruct (q_start P C) as (H1 & _ & _ & l & H4 & H5 & H6). exists l. rewrite H4, app_nil_r. auto. Qed.
Lemma start_files : k_cwnd (krun []) = cwnd_header /\ k_rtt (krun []) = rtt_header /\
  windows (a_history (run [])) = [] /\ samples (a_history (run [])) = [] /\ a_cwnd (run []) = p_initW P.
Proof.
  destruct start_tr as (l & H1 & H2 & H3 & H4). change (run []) with (doRun P C (a_init P)).
  change (krun []) with (k_start P C cwnd rttVar sRtt rtts el). unfold k_start, k_update. cbn [k_cwnd k_rtt k_pipe].
  rewrite (new_signals_app (a_init P) _ l) by (rewrite H1; symmetry; apply app_nil_r).
  rewrite flat_windows, flat_samples, rev_windows, rev_samples, H2, H3. unfold a_history. rewrite H1, rev_windows, rev_samples, H2, H3. cbn [rev flat_map]. repeat split; try apply app_nil_r. exact H4.
Qed.

Lemma last_snoc {A} (l : list A) x d : last (l ++ [x]) d = x.
Proof. induction l as [|y l IH]; [reflexivity|]. cbn [app]. destruct (l ++ [x]) eqn:El; [now destruct l|]. exact IH. Qed.
Lemma sorted_snoc {A} (le : A -> A -> Prop) l x : StronglySorted le l -> Forall (fun y => le y x) l -> StronglySorted le (l ++ [x]).
Proof.
  induction 1 as [|y l Hs IH Hy]; intros F; cbn [app]; [repeat constructor|]. apply Forall_cons_iff in F. destruct F as [F1 F2].
  constructor; [now apply IH|]. apply Forall_app. split; [exact Hy|auto].
Qed.
Lemma cwnd_file es : (passed es < ns_max)%Z ->
  exists (changes : list (Z * W)) lines,
    k_cwnd (krun es) = str "time" ++ TAB ++ str "cwndsize" ++ LF ++ concat lines /\
    Forall2 (fun c l => cwnd_line (fst c) (cwnd (snd c)) (shown_time (fst c)) l) changes lines /\
    windows (a_history (run es)) = map (fun c => OWindow (p_floor P (snd c))) changes /\
    StronglySorted Z.le (map fst changes) /\ Forall (fun c => 0 <= fst c <= passed es)%Z changes /\
    a_cwnd (run es) = last (map snd changes) (p_initW P).
Proof.
  induction es as [|e es IH] using rev_ind; intros Hp.
  - destruct start_files as (H1 & _ & H2 & _ & H3). exists [], []. rewrite H1, H2, H3. repeat split; constructor.
  - rewrite passed_snoc in Hp. assert (0 <= match e with AeTick dt => Z.of_N dt | _ => 0 end)%Z by (destruct e; lia).
    destruct IH as (ch & ls & H1 & H2 & H3 & H4 & H5 & H6); [lia|].
    destruct (cwnd_step es e) as (new & G1 & G2); [lia|]. cbv zeta in G1, G2. rewrite G1. fold (windows (a_history (run es) ++ new)).
    rewrite windows_app, passed_snoc. destruct G2 as [(G2 & G3 & G4)|(l & G2 & G3 & G4)]; rewrite G2.
    + exists ch, ls. rewrite app_nil_r, G4, G3. repeat split; auto. eapply Forall_impl; [|exact H5]. cbn. intros; lia.
    + exists (ch ++ [(passed es, a_cwnd (run (es ++ [e])))]), (ls ++ [l]). rewrite G3, H1, H3, !map_app. cbn [map fst snd]. repeat split.
      * rewrite concat_app. cbn [concat]. rewrite app_nil_r. change TAB with tab. rewrite <- !app_assoc. reflexivity.
      * apply Forall2_app; [exact H2|]. constructor; [exact G4|constructor].
      * apply sorted_snoc; [exact H4|]. apply Forall_map. eapply Forall_impl; [|exact H5]. cbn. intros; lia.
      * apply Forall_app. split; [eapply Forall_impl; [|exact H5]; cbn; intros; lia|]. constructor; [|constructor]. cbn. pose proof (passed_ge0 es). lia.
      * now rewrite last_snoc.
Qed.
Lemma cwnd_file' es : (passed es < ns_max)%Z ->
  exists (changes : list (Z * W * R)) lines,
    k_cwnd (krun es) = str "time" ++ TAB ++ str "cwndsize" ++ LF ++ concat lines /\
    Forall2 (fun '(ns, w, r) l => cwnd_line ns (cwnd w) r l) changes lines /\
    windows (a_history (run es)) = map (fun '(_, w, _) => OWindow (p_floor P w)) changes /\
    StronglySorted Z.le (map (fun '(ns, _, _) => ns) changes) /\ StronglySorted Rle (map (fun '(_, _, r) => r) changes) /\
    Forall (fun '(ns, _, _) => 0 <= ns <= passed es)%Z changes /\
    a_cwnd (run es) = last (map (fun '(_, w, _) => w) changes) (p_initW P).
Proof.
  intros Hp. destruct (cwnd_file es Hp) as (ch & ls & H1 & H2 & H3 & H4 & H5 & H6).
  exists (map (fun c => (fst c, snd c, shown_time (fst c))) ch), ls. rewrite !map_map. split; [exact H1|]. split.
  { clear -H2. induction H2; cbn [map]; constructor; auto. }
  split; [exact H3|]. split; [exact H4|]. split; [|split; [|exact H6]].
  - clear -H4 H5 Hp. induction ch as [|c ch IH]; cbn [map] in *; [constructor|]. inversion H4; subst. apply Forall_cons_iff in H5. destruct H5 as [B H5].
    constructor; [auto|]. apply Forall_map. rewrite Forall_map in H2. rewrite Forall_forall in *. intros x Hx. apply shown_time_le; [split; [apply B|now apply H2]|].
    specialize (H5 x Hx). cbn in H5. lia.
  - apply Forall_map. exact H5.
Qed.

Lemma rtt_file es :
  exists lines, k_rtt (krun es) = str "segment" ++ TAB ++ str "rtt" ++ TAB ++ str "rttvar" ++ TAB ++ str "srtt" ++ TAB ++ str "rto" ++ LF ++ concat lines /\
    Forall2 (fun o l => exists seg rtt n r, o = ORttSample seg rtt n /\ rtt_line seg rtt (rttVar r) (sRtt r) (p_rto P r) l) (samples (a_history (run es))) lines.
Proof.
  induction es as [|e es (ls & H1 & H2)] using rev_ind.
  - destruct start_files as (_ & H1 & _ & H2 & _). exists []. rewrite H1, H2. split; [reflexivity|constructor].
  - destruct (rtt_step es e) as (new & G1 & G2). cbv zeta in G1, G2. rewrite G1, samples_app.
    destruct G2 as [(G2 & G3)|(seg & rtt & n & l & G2 & G3 & G4 & G5)]; rewrite G2.
    + exists ls. rewrite app_nil_r, G3. auto.
    + exists (ls ++ [l]). split.
      * rewrite G4, H1, concat_app. cbn [concat]. rewrite app_nil_r, <- !app_assoc. reflexivity.
      * apply Forall2_app; [exact H2|]. constructor; [|constructor]. eauto 6.
Qed.
End K.
