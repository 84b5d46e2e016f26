From Verif Require Import Base PipelineBase FetcherModel FixedModel AdaptiveModel CatchunksModel Double WindowModel OptionsModel OptionsSpec.
From Coq Require Import String Lia ZifyBool.
From Coq Require Import List.
Local Open Scope Z_scope.

Lemma empty_true s : empty s = true <-> s = ""%string.
Proof. apply String.eqb_eq. Qed.
Lemma empty_false s : empty s = false <-> s <> ""%string.
Proof. apply String.eqb_neq. Qed.

Lemma badConvention_false s : badConvention s = false <-> convention_documented s.
Proof.
  unfold badConvention, convention_documented, empty. cbn [In].
  repeat (match goal with |- context [String.eqb s ?x] => destruct (String.eqb_spec s x) as [->|?] end; cbn [orb negb]; [split; intros; auto 10; intuition|]).
  split; [discriminate|]. intuition congruence.
Qed.

Lemma checks_all {J} l (last : outcome J) : Forall (fun p => fst p = false) l -> checks l last = last.
Proof. induction 1 as [|[c o] l Hc Hl IH]; cbn in *; [reflexivity|]. now rewrite Hc. Qed.

(** if all outcomes in the list are the same, one true condition decides *)
Lemma checks_some {J} l (last x : outcome J) :
  Forall (fun p => fst p = true -> snd p = x) l -> Exists (fun p => fst p = true) l -> checks l last = x.
Proof.
  induction 1 as [|[c o] l Hc Hl IH]; intros H; [inversion H|]. cbn in *. destruct c; [now apply Hc|].
  apply IH. inversion H; subst; [discriminate|assumption].
Qed.

Lemma all_alnum_true s : all_alnum s = true <-> Forall alnum (list_ascii_of_string s).
Proof.
  induction s as [|c s IH]; cbn [all_alnum list_ascii_of_string].
  - split; auto.
  - rewrite andb_true_iff, IH. split.
    + intros [H1 H2]. constructor; auto. clear -H1. destruct c as [[] [] [] [] [] [] [] []]; first [discriminate H1|vm_compute; tauto].
    + intros H. inversion H; subst. split; auto. clear -H2. unfold alnum in H2. cbn in H2.
      repeat (destruct H2 as [<-|H2]; [reflexivity|]). contradiction.
Qed.

Ltac each := repeat (apply Forall_cons; [cbn [fst snd]|]); [..|apply Forall_nil].

(** * ndncatchunks *)
Section Cat.
Variables (name_ok writable : string -> bool) (o : cat_opts).
Notation main := (cat_main name_ok writable (Parsed false false o)).

Lemma cat_ok : cat_documented o -> rto_representable o -> name_ok (cc_prefix o) = true -> logs_writable writable o ->
  main = Proceed (
    let A := AConfig (cc_retries o) (cc_ignoreMarks o) (cc_disableCwa o) d_appnack in
    if String.eqb (cc_type o) "fixed" then JFixed (XConfig (Z.to_nat (cc_size o)) (cc_retries o) d_appnack)
    else if String.eqb (cc_type o) "aimd" then JAimd A (AimdOpts (cc_initCwnd o) (cc_initSsthresh o) (cc_aiStep o) (cc_mdCoef o) (cc_resetCwnd o))
    else JCubic A (CubicOpts (cc_initCwnd o) (cc_initSsthresh o) (cc_cubicBeta o) (cc_fastConv o))).
Proof.
  intros (D1 & D2 & D3 & D4 & D5 & D6 & D7 & D8 & D9) [R1 R2] N L.
  unfold cat_main. rewrite checks_all.
  - cbn [In] in D9. destruct D9 as [E|[E|[E|[]]]]; rewrite <- E in *; cbn [String.eqb Ascii.eqb Bool.eqb orb].
    + reflexivity.
    + destruct L as [L|[L1 L2]]; [rewrite <- E in L; discriminate|]. rewrite checks_all; [reflexivity|].
      each.
      * destruct L1 as [->| ->]; [reflexivity|apply andb_false_r].
      * destruct L2 as [->| ->]; [reflexivity|apply andb_false_r].
    + destruct L as [L|[L1 L2]]; [rewrite <- E in L; discriminate|]. rewrite checks_all; [reflexivity|].
      each.
      * destruct L1 as [->| ->]; [reflexivity|apply andb_false_r].
      * destruct L2 as [->| ->]; [reflexivity|apply andb_false_r].
  - each; unfold fits64; try lia.
    + now apply empty_false.
    + now apply badConvention_false.
Qed.

Lemma cat_not_ok : ~ cat_documented o -> rto_representable o -> name_ok (cc_prefix o) = true -> logs_writable writable o ->
  main = Exit 2.
Proof.
  intros D [R1 R2] N L.
  set (l := [ (empty (cc_prefix o), @Exit cat_job 2); (badConvention (cc_nameConv o), Exit 2); (cc_lifetime o <? 0, Exit 2);
      ((cc_retries o <? -1) || (1024 <? cc_retries o), Exit 2); (cc_quiet o && cc_verbose o, Exit 2);
      ((cc_size o <? 1) || (1024 <? cc_size o), Exit 2); (cc_rtoK o <? 0, Exit 2);
      (negb (fits64 (cc_minRto o * 1000000)), Undefined); (cc_minRto o * 1000000 <? 0, Exit 2);
      (negb (fits64 (cc_maxRto o * 1000000)), Undefined); (cc_maxRto o * 1000000 <? cc_minRto o * 1000000, Exit 2);
      (negb (name_ok (cc_prefix o)), Exit 1)]).
  assert (F1 : fits64 (cc_minRto o * 1000000) = true) by (unfold fits64; lia).
  assert (F2 : fits64 (cc_maxRto o * 1000000) = true) by (unfold fits64; lia).
  assert (H : Forall (fun p => fst p = false) l \/ Exists (fun p => fst p = true) l).
  { clear. induction l as [|[c x] l IH]; [now left|]. destruct c; [right; now left|]. destruct IH; [left; now constructor|right; now right]. }
  unfold cat_main. destruct H as [H|H].
  - change ((checks l (if String.eqb (cc_type o) "fixed" then Proceed (JFixed (XConfig (Z.to_nat (cc_size o)) (cc_retries o) d_appnack))
       else if String.eqb (cc_type o) "aimd" || String.eqb (cc_type o) "cubic" then
         checks [
           (negb (empty (cc_logCwnd o)) && negb (writable (cc_logCwnd o)), Exit 4);
           (negb (empty (cc_logRtt o)) && negb (writable (cc_logRtt o)), Exit 4)
         ] (if String.eqb (cc_type o) "aimd"
            then Proceed (JAimd (AConfig (cc_retries o) (cc_ignoreMarks o) (cc_disableCwa o) d_appnack) (AimdOpts (cc_initCwnd o) (cc_initSsthresh o) (cc_aiStep o) (cc_mdCoef o) (cc_resetCwnd o)))
            else Proceed (JCubic (AConfig (cc_retries o) (cc_ignoreMarks o) (cc_disableCwa o) d_appnack) (CubicOpts (cc_initCwnd o) (cc_initSsthresh o) (cc_cubicBeta o) (cc_fastConv o))))
       else Exit 2)) = Exit 2).
    rewrite checks_all by exact H. unfold l in H.
    repeat match goal with H : Forall _ (_ :: _) |- _ => apply Forall_cons_iff in H; let X := fresh "X" in destruct H as [X H]; cbn [fst] in X end.
    apply empty_false in X. apply badConvention_false in X0. apply Z.ltb_ge in X1.
    assert (Y2 : -1 <= cc_retries o <= 1024) by (clear - X2; lia).
    assert (Y3 : ~ (cc_quiet o = true /\ cc_verbose o = true)) by (intros [Q V]; rewrite Q, V in X3; discriminate).
    assert (Y4 : 1 <= cc_size o <= 1024) by (clear - X4; lia). apply Z.ltb_ge in X5.
    assert (Y7 : 0 <= cc_minRto o <= cc_maxRto o) by (clear - X7 X9; lia).
    destruct (String.eqb_spec (cc_type o) "fixed") as [E|E1];
    [|destruct (String.eqb_spec (cc_type o) "aimd") as [E|E2]; [|destruct (String.eqb_spec (cc_type o) "cubic") as [E|E3]]];
    [exfalso; apply D; unfold cat_documented; rewrite E; cbn [In]; intuition ..|reflexivity].
  - apply (checks_some l).
    + unfold l. each; try reflexivity; intros X; try (rewrite ?F1, ?F2, ?N in X; discriminate X).
    + exact H.
Qed.
End Cat.

(** * The other tools *)
Lemma decide_checks {J} (l : list (bool * outcome J)) : Forall (fun p => fst p = false) l \/ Exists (fun p => fst p = true) l.
Proof. induction l as [|[c x] l IH]; [now left|]. destruct c; [right; now left|]. destruct IH; [left; now constructor|right; now right]. Qed.

Lemma checks_status {J} l (last x : outcome J) :
  Forall (fun p => fst p = true -> snd p = x) l -> ~ Forall (fun p => fst p = false) l -> checks l last = x.
Proof. intros H N. apply checks_some; [exact H|]. destruct (decide_checks l); [contradiction|assumption]. Qed.

Ltac each_in H := repeat match type of H with Forall _ (_ :: _) => apply Forall_cons_iff in H; destruct H as [? H]; cbn [fst] in * end.

Lemma put_ok name_ok signing_ok o : put_documented signing_ok o -> name_ok (pc_prefix o) = true ->
  put_main name_ok signing_ok (Parsed false false o) = Proceed (pc_freshness o, pc_size o).
Proof.
  intros (D1 & D2 & D3 & D4 & D5 & D6) N. unfold put_main. apply checks_all. each; try lia.
  - now apply empty_false.
  - now apply badConvention_false.
Qed.
Lemma put_not_ok name_ok signing_ok o : ~ put_documented signing_ok o -> name_ok (pc_prefix o) = true ->
  put_main name_ok signing_ok (Parsed false false o) = Exit 2.
Proof.
  intros D N. unfold put_main. apply checks_status.
  - each; try reflexivity; intros X; try discriminate X. rewrite N in X. discriminate X.
  - intros H. apply D. each_in H. unfold put_documented.
    repeat apply conj; try (now apply empty_false); try (now apply badConvention_false); lia.
Qed.

Lemma ping_ok name_ok o : ping_documented o -> (forall p, gc_prefix o = Some p -> name_ok p = true) ->
  ping_main name_ok (Parsed false false o) = Proceed (gc_interval o, gc_timeout o, match gc_count o with Some n => n | None => -1 end).
Proof.
  intros (D1 & D2 & D3 & D4 & D5) N. unfold ping_main. apply checks_all. each; try lia.
  - destruct (gc_prefix o) as [p|]; [|reflexivity]. now rewrite N.
  - destruct (gc_prefix o); [reflexivity|contradiction].
  - destruct (gc_count o) as [n|]; [|reflexivity]. specialize (D4 n eq_refl). lia.
  - destruct (gc_identifier o) as [i|]; [|reflexivity]. destruct (D5 i eq_refl) as [H1 H2].
    apply empty_false in H1. apply all_alnum_true in H2. now rewrite H1, H2.
Qed.
Lemma ping_not_ok name_ok o : ~ ping_documented o -> (forall p, gc_prefix o = Some p -> name_ok p = true) ->
  ping_main name_ok (Parsed false false o) = Exit 2.
Proof.
  intros D N. unfold ping_main. apply checks_status.
  - each; try reflexivity; intros X; try discriminate X. destruct (gc_prefix o) as [p|]; [|discriminate X]. rewrite N in X by reflexivity. discriminate X.
  - intros H. apply D. each_in H. unfold ping_documented. repeat apply conj; try lia.
    + destruct (gc_prefix o); discriminate.
    + intros n E. rewrite E in *. lia.
    + intros i E. rewrite E in *. destruct (empty i) eqn:E1; [discriminate|]. destruct (all_alnum i) eqn:E2; [|discriminate].
      split; [now apply empty_false|now apply all_alnum_true].
Qed.

Lemma server_ok name_ok o : server_documented o -> name_ok (sc_prefix o) = true ->
  server_main name_ok (Parsed false false o) = Proceed (sc_freshness o, sc_satisfy o, sc_size o).
Proof.
  intros (D1 & D2 & D3 & D4) N. unfold server_main. apply checks_all. each; try lia.
  now apply empty_false.
Qed.
Lemma server_not_ok name_ok o : ~ server_documented o -> name_ok (sc_prefix o) = true ->
  server_main name_ok (Parsed false false o) = Exit 2.
Proof.
  intros D N. unfold server_main. apply checks_status.
  - each; try reflexivity; intros X; try discriminate X. rewrite N in X. discriminate X.
  - intros H. apply D. each_in H. unfold server_documented.
    repeat apply conj; try (now apply empty_false); lia.
Qed.

Lemma peek_ok name_ok base64_ok readable o : peek_documented name_ok base64_ok readable o ->
  peek_main name_ok base64_ok readable (Parsed false false o) =
  Proceed (kc_timeout o, kc_lifetime o, kc_hopLimit o,
           match kc_params o, kc_paramsFile o with
           | Some s, _ => FromText s
           | None, Some f => FromFile f
           | None, None => NoParams
           end).
Proof.
  intros ((n & D1 & D1') & DH & D2 & D3 & D4 & D5 & D6 & D7). unfold peek_main. rewrite checks_all.
  - f_equal. f_equal.
    + f_equal. destruct (kc_hopLimit o) as [h|]; [|reflexivity]. cbn. specialize (D4 h eq_refl). f_equal. apply Z.mod_small. lia.
    + destruct (kc_params o), (kc_paramsFile o); try reflexivity. destruct D5; discriminate.
  - rewrite D1. each; try lia; try reflexivity.
    + apply negb_false_iff, forallb_forall. exact DH.
    + destruct (kc_timeout o) as [t|]; [|reflexivity]. specialize (D2 t eq_refl). lia.
    + destruct (kc_hopLimit o) as [h|]; [|reflexivity]. specialize (D4 h eq_refl). lia.
    + destruct (kc_params o), (kc_paramsFile o); try reflexivity. destruct D5; discriminate.
    + destruct (kc_params o) as [t|]; [|reflexivity]. now rewrite D6.
    + destruct (kc_paramsFile o) as [t|]; [|reflexivity]. now rewrite D7.
Qed.
Lemma peek_not_ok name_ok base64_ok readable o : ~ peek_documented name_ok base64_ok readable o ->
  peek_main name_ok base64_ok readable (Parsed false false o) = Exit 2.
Proof.
  intros D. unfold peek_main. apply checks_status.
  - each; try reflexivity; intros X; discriminate X.
  - intros H. apply D. each_in H. unfold peek_documented. repeat apply conj; try lia.
    + destruct (kc_name o) as [n|]; [|discriminate]. exists n. split; [reflexivity|]. now apply negb_false_iff.
    + apply forallb_forall. now apply negb_false_iff.
    + intros t E. rewrite E in *. lia.
    + intros h E. rewrite E in *. lia.
    + destruct (kc_params o), (kc_paramsFile o); auto. discriminate.
    + intros t E. rewrite E in *. now apply negb_false_iff.
    + intros t E. rewrite E in *. now apply negb_false_iff.
Qed.

Lemma poke_ok name_len signing_ok o : poke_documented name_len signing_ok o ->
  poke_main name_len signing_ok (Parsed false false o) = Proceed (oc_freshness o, oc_unsolicited o, oc_timeout o).
Proof.
  intros ((s & n & D1 & D1' & D1'') & D2 & D3 & D4). unfold poke_main. apply checks_all. rewrite D1, D1'. each; try lia; try reflexivity.
  - destruct n; [contradiction|reflexivity].
  - destruct (oc_timeout o) as [t|]; [|reflexivity]. now destruct (D4 t eq_refl).
  - destruct (oc_timeout o) as [t|]; [|reflexivity]. destruct (D4 t eq_refl). lia.
Qed.
Lemma poke_not_ok name_len signing_ok o : ~ poke_documented name_len signing_ok o ->
  poke_main name_len signing_ok (Parsed false false o) = Exit 2.
Proof.
  intros D. unfold poke_main. apply checks_status.
  - each; try reflexivity; intros X; discriminate X.
  - intros H. apply D. each_in H. unfold poke_documented. repeat apply conj; try lia.
    + destruct (oc_name o) as [s|]; [|discriminate]. destruct (name_len s) as [[|n]|] eqn:E; try discriminate. exists s, (S n). auto.
    + intros t E. rewrite E in *. split; [assumption|lia].
Qed.

Lemma dump_ok regex_ok o : dump_documented regex_ok o ->
  exists i r, dump_main regex_ok (Parsed false false o) = Proceed (i, r, dc_filter o) /\
    (forall s, dc_interface o = Some s -> i = s) /\ (dc_interface o = None -> i = ""%string) /\
    (forall s, dc_read o = Some s -> r = s) /\ (dc_read o = None -> r = ""%string).
Proof.
  intros (D1 & D2). eexists _, _. split.
  - unfold dump_main. apply checks_all. each; try reflexivity.
    + destruct (dc_interface o), (dc_read o); try reflexivity. destruct D1; discriminate.
    + destruct (dc_filter o) as [f|]; [|reflexivity]. now rewrite D2.
  - cbn. repeat split; intros; rewrite H; reflexivity.
Qed.
Lemma dump_not_ok regex_ok o : ~ dump_documented regex_ok o -> dump_main regex_ok (Parsed false false o) = Exit 2.
Proof.
  intros D. unfold dump_main. apply checks_status.
  - each; try reflexivity; intros X; discriminate X.
  - intros H. apply D. each_in H. split.
    + destruct (dc_interface o), (dc_read o); auto. discriminate.
    + intros f E. rewrite E in *. now apply negb_false_iff.
Qed.

Lemma dissect_ok readable o : dissect_documented readable o ->
  dissect_main readable (Parsed false false o) =
  Proceed (match o with Some f => if String.eqb f "-" then None else Some f | None => None end).
Proof.
  intros D. unfold dissect_main. apply checks_all. each; try reflexivity.
  destruct o as [f|]; [|reflexivity]. destruct (D f eq_refl) as [->| ->]; [reflexivity|]. apply andb_false_r.
Qed.
Lemma dissect_not_ok readable o : ~ dissect_documented readable o -> dissect_main readable (Parsed false false o) = Exit 3.
Proof.
  intros D. unfold dissect_main. apply checks_status.
  - each; try reflexivity; intros X; discriminate X.
  - intros H. apply D. each_in H. intros f ->. destruct (String.eqb_spec f "-") as [->|N]; [now left|right].
    destruct (readable f); [reflexivity|discriminate].
Qed.

(** * The first Interests *)
Definition burst (k : N) (n : nat) : list pobs := map (fun i => OInterest (k + N.of_nat i) false) (seq 0 n).
Lemma burst_S k n : burst k (S n) = OInterest k false :: burst (k + 1) n.
Proof.
  unfold burst. cbn [seq map]. rewrite <- seq_shift, map_map. f_equal.
  - f_equal. lia.
  - apply map_ext. intros i. f_equal. lia.
Qed.

Lemma iter_burst {R W} (P : policy W R) (C : aconfig) n : forall k s,
  isStopping s = false -> b_hasFbi (a_b s) = false -> a_hasFailure s = false -> a_retxq s = [] ->
  b_next (a_b s) = k -> a_history (iter n (sendOne P C) s) = a_history s ++ burst k n.
Proof.
  induction n as [|n IH]; intros k s H1 H2 H3 H4 H5.
  - cbn. now rewrite app_nil_r.
  - cbn [iter]. rewrite burst_S.
    assert (E : sendOne P C s = express P k false (set_b (snd (b_getNext (a_b s))) (set_retxq [] s))).
    { unfold sendOne. rewrite H4. cbn [dropSkipped]. change (a_retxq (set_retxq [] s)) with (@nil N). cbn iota.
      change (a_b (set_retxq [] s)) with (a_b s). cbn [b_getNext snd]. unfold sendInterest.
      change (isStopping (set_b ?b _)) with (b_stopping b). cbn [b_stopping]. unfold isStopping in H1. rewrite H1.
      cbn -[N.ltb express]. rewrite H2, H3, H5. reflexivity. }
    rewrite E, (IH (k + 1)%N).
    + unfold a_history, express. cbn -[burst]. now rewrite <- app_assoc.
    + exact H1.
    + exact H2.
    + exact H3.
    + reflexivity.
    + cbn. now rewrite H5.
Qed.

Lemma adaptive_start {R W} (P : policy W R) (C : aconfig) :
  a_history (a_run P C []) = burst 0 (Z.to_nat (p_floor P (p_initW P))).
Proof.
  unfold a_run. cbn [fold_left]. unfold doRun. change (b_allReceived (a_b (a_init P))) with false. cbn iota.
  unfold schedulePackets. change (a_nInFlight (set_timer true (a_init P)) <? 0) with false. cbn iota.
  rewrite (iter_burst P C _ 0%N) by reflexivity. cbn [app]. change (a_nInFlight (set_timer true (a_init P))) with 0.
  now rewrite Z.sub_0_r.
Qed.

Lemma nth_upd_later {A} (v : A) l : forall i j, (i < j)%nat -> nth_error (upd i v l) j = nth_error l j.
Proof.
  induction l as [|x l IH]; intros i j H; destruct i, j; try lia; cbn; try reflexivity. apply IH. lia.
Qed.
Lemma doRun_burst C : forall k i next s,
  b_stopping (x_b s) = false -> b_hasFbi (x_b s) = false -> x_hasFailure s = false -> b_next (x_b s) = next ->
  (forall j f, (i <= j)%nat -> nth_error (x_slots s) j <> Some (Some f)) ->
  x_history (x_doRun C k i s) = x_history s ++ burst next k.
Proof.
  induction k as [|k IH]; intros i next s H1 H2 H3 H4 H5.
  - cbn. now rewrite app_nil_r.
  - cbn [x_doRun]. rewrite burst_S.
    set (s' := XState (PBase false (b_last (x_b s)) (b_nReceived (x_b s)) (b_recvSize (x_b s)) (next + 1) false)
                      (upd i (Some (fst f_start, next)) (x_slots s)) false (x_crashed s) (OInterest next false :: x_tr s)).
    assert (E : fetchNextSegment C i s = (s', true)).
    { unfold fetchNextSegment. rewrite H1, H3. unfold b_getNext. cbn -[upd f_start nth_error]. rewrite H2. cbn -[upd f_start nth_error].
      destruct (nth_error (x_slots s) i) as [[[f n]|]|] eqn:N; [exfalso; now apply (H5 i (f, n) (Nat.le_refl i))| |];
      unfold s', x_setSlots; cbn -[upd f_start nth_error]; rewrite H1, H3, H4; reflexivity. }
    rewrite E, (IH (S i) (next + 1)%N s').
    + unfold x_history. cbn -[burst]. now rewrite <- app_assoc.
    + reflexivity.
    + reflexivity.
    + reflexivity.
    + reflexivity.
    + intros j f Hj. cbn. rewrite nth_upd_later by lia. apply H5. lia.
Qed.
Lemma fixed_start C : x_history (x_run C []) = burst 0 (xc_size C).
Proof.
  unfold x_run. cbn [fold_left]. rewrite (doRun_burst C _ 0%nat 0%N); try reflexivity.
  intros j f _. cbn. intros E. apply nth_error_In, repeat_spec in E. discriminate.
Qed.

Lemma in_burst0 n : (1 <= n)%nat -> In (OInterest 0 false) (burst 0 n).
Proof. intros H. destruct n; [lia|]. rewrite burst_S. now left. Qed.

(** the number of Interests a job starts with *)
Definition job_window (j : cat_job) : Z :=
  match j with
  | JFixed C => Z.of_nat (xc_size C)
  | JAimd _ o => to_int64 (ai_initCwnd o)
  | JCubic _ o => to_int64 (cu_initCwnd o)
  end.
Lemma start_burst {R} (r0 : R) srtt rto sample backoff cbrt pow3 j :
  cat_start r0 srtt rto sample backoff cbrt pow3 j = burst 0 (Z.to_nat (job_window j)).
Proof.
  destruct j as [C|C o|C o]; cbn [cat_start job_window].
  - now rewrite fixed_start, Nat2Z.id.
  - now rewrite adaptive_start.
  - now rewrite adaptive_start.
Qed.

From Coq Require Import Reals Lra.
From Flocq Require Import Core BinarySingleNaN.
Lemma to_int64_ge1 x : (1 <= to_int64 x)%Z <-> is_finite x = true /\ (1 <= B2R x < bpow radix2 63)%R.
Proof.
  unfold to_int64. change (bpow radix2 63) with (IZR 9223372036854775808).
  destruct (is_finite x) eqn:F; cbn [andb]; [|split; [lia|intros [H _]; discriminate]].
  assert (E : Btrunc x = Ztrunc (B2R x)).
  { apply eq_IZR. rewrite Btrunc_correct by (reflexivity || lia). unfold round, scaled_mantissa, cexp, FIX_exp, F2R. cbn. now rewrite !Rmult_1_r. }
  rewrite E. clear E. set (r := B2R x). destruct (Rle_or_lt 0 r) as [H0|H0].
  - rewrite Ztrunc_floor by exact H0. pose proof (Zfloor_lb r). pose proof (Zfloor_ub r).
    assert (0 <= Zfloor r)%Z by (apply Zfloor_lub; exact H0).
    destruct (Z.ltb_spec (Z.abs (Zfloor r)) 9223372036854775808) as [L|L].
    + split; intros G.
      * split; [reflexivity|]. apply IZR_le in G. split; [lra|]. assert (IZR (Zfloor r + 1) <= IZR 9223372036854775808)%R by (apply IZR_le; lia). rewrite plus_IZR in *. lra.
      * destruct G as [_ [G _]]. apply Zfloor_lub. exact G.
    + split; [lia|]. intros [_ [_ G]]. exfalso. assert (IZR 9223372036854775808 <= IZR (Zfloor r))%R by (apply IZR_le; lia). lra.
  - rewrite Ztrunc_ceil by lra. split; [|intros [_ [G _]]; lra]. intros G. exfalso.
    assert (Zceil r <= 0)%Z by (apply Zceil_glb; cbn; lra). destruct (_ <? _)%Z; lia.
Qed.
