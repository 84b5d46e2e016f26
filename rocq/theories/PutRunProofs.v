(** Proofs about ndnputchunks as a program. *)
From Verif Require Import Base BaseFacts TlvModel TlvProofs PingModel PeekModel PeekPokeModel PeekRunModel PutchunksModel PutchunksSpec PutchunksProofs ChunksTheorems DumpModel DissectSpec DissectProofs PeekRunProofs ServeModel ServeSpec ServeProofs ServeProofs2 PutRunModel PutRunSpec.
From Coq Require Import String List Lia ZArith.
Import ListNotations.
Local Open Scope Z_scope.
Local Open Scope list_scope.

Local Opaque str unlines to_string.
Lemma last_comp_app n c : last_comp (n ++ [c]) = Some c.
Proof. unfold last_comp. now rewrite rev_app_distr. Qed.

Lemma conv_is_spec s l : conv_is s l = true <-> exists x, In x l /\ s = str x.
Proof.
  unfold conv_is. rewrite existsb_exists. split; intros (x & I & E); exists x; (split; [exact I|]).
  - destruct (list_eq_dec N.eq_dec s (str x)); [assumption|discriminate].
  - destruct (list_eq_dec N.eq_dec s (str x)); [reflexivity|contradiction].
Qed.
Lemma str_nonempty_conv : str "marker" <> [] /\ str "m" <> [] /\ str "1" <> [] /\ str "typed" <> [] /\ str "t" <> [] /\ str "2" <> [].
Proof. repeat split; discriminate. Qed.
Lemma str_conv_differ s : (s = str "marker" \/ s = str "m" \/ s = str "1") -> (s = str "typed" \/ s = str "t" \/ s = str "2") -> False.
Proof. intros [->|[->| ->]] [H|[H|H]]; discriminate H. Qed.
Lemma convention_spec d s :
  match convention_of d s with Some cv => chosen_convention d s cv | None => forall cv, ~ chosen_convention d s cv end.
Proof.
  unfold convention_of. destruct (conv_is s ["marker"; "m"; "1"]%string) eqn:E1.
  - apply conv_is_spec in E1. destruct E1 as (x & [<-|[<-|[<-|[]]]] & ->); apply Cc_marker; auto.
  - destruct (conv_is s ["typed"; "t"; "2"]%string) eqn:E2.
    + apply conv_is_spec in E2. destruct E2 as (x & [<-|[<-|[<-|[]]]] & ->); apply Cc_typed; auto.
    + destruct s as [|ch s']; [apply Cc_default|]. intros cv C. inversion C; subst.
      * assert (X : conv_is (ch :: s') ["marker"; "m"; "1"]%string = true); [|congruence].
        apply conv_is_spec. destruct H as [H|[H|H]]; [exists "marker"%string|exists "m"%string|exists "1"%string]; (split; [cbn; auto|exact H]).
      * assert (X : conv_is (ch :: s') ["typed"; "t"; "2"]%string = true); [|congruence].
        apply conv_is_spec. destruct H as [H|[H|H]]; [exists "typed"%string|exists "t"%string|exists "2"%string]; (split; [cbn; auto|exact H]).
Qed.

Section P.
Variable digest : packet -> component.
Variable sign : packet -> list N * list N.
Variable name_uri : name -> text.
Variable interest_text : interest -> text.
Variable data_text : packet -> text.
Variable put_error : text.
Variable a : put_args.
Variable cv : convention.
Variable now0 : N.
Hypothesis Hnow : u64 now0.
Hypothesis Hsize : (1 <= ua_size a)%N.
Variable prefix : name.
Variable input : list N.
Notation o := (POpts (N.to_nat (ua_size a)) (ua_fresh a)).
Notation u := (ServeModel.PutOpts (ua_quiet a) (ua_verbose a) (ua_show a)).
Notation P := (make_producer cv now0 o prefix input).
Notation chunks := (pieces (N.to_nat (ua_size a)) input).
Notation stepf := (ur_step digest sign name_uri interest_text data_text put_error u cv P).
Variable v : component.
Hypothesis Hv : pr_vprefix P = pr_prefix P ++ [v].
Notation plain := (pr_prefix P).
Notation SEGMENT := (segment a cv plain v chunks).
Notation FOR_SEGMENT := (for_segment plain v).
Notation FOR_CONTENT := (for_content plain v).
Notation REPLIES := (replies digest interest_text data_text a cv plain v chunks).
Notation PUBLISHING := (publishing digest sign name_uri interest_text data_text put_error a cv plain v chunks).

Lemma size_pos : (0 < po_size o)%nat. Proof. cbn. lia. Qed.
Lemma vprefix_rest n : is_prefix_of (pr_vprefix P) n = true <-> exists rest, n = plain ++ v :: rest.
Proof. rewrite is_prefix_of_spec, Hv. split; intros (r & ->); exists r; now rewrite <- app_assoc. Qed.
Lemma metadata_rest i : is_prefix_of (discovery_name plain) (i_name i) = true <-> for_metadata plain i.
Proof.
  rewrite is_prefix_of_spec. unfold discovery_name, for_metadata. change (Comp 32 (str "metadata")) with metadata_comp.
  split; intros (r & ->); exists r; now rewrite <- app_assoc.
Qed.
Lemma segment_nth k : match nth_error (pr_store P) (N.to_nat k) with Some d => SEGMENT k d | None => (N.of_nat (length chunks) <= k)%N end.
Proof.
  rewrite store_nth. cbn [po_size po_fresh]. destruct (nth_error chunks (N.to_nat k)) as [c|] eqn:E.
  - unfold make_segment. rewrite N2Nat.id, Hv, <- app_assoc. cbn [app].
    replace (N.of_nat (length chunks - 1)) with (N.of_nat (length chunks) - 1)%N by lia. now constructor.
  - apply nth_error_None in E. lia.
Qed.
Definition content_like (i : interest) : Prop := i_name i = plain \/ exists rest, i_name i = plain ++ v :: rest.
(** what processSegmentInterest answers *)
Lemma segment_reply now w i : content_like i ->
  is_prefix_of (discovery_name plain) (i_name i) = false ->
  exists m, REPLIES now i (processSegmentInterest digest P i) m /\
    message interest_text data_text (ua_verbose a) (discovery_name plain) (w, i, processSegmentInterest digest P i) = told a m.
Proof.
  intros C E. unfold message. rewrite E. unfold told.
  assert (G : exists m, REPLIES now i (processSegmentInterest digest P i) m /\
    m = [str "Interest: " ++ interest_text i; match processSegmentInterest digest P i with RpData p => str "Data: " ++ data_text p | RpNack => str "Interest cannot be satisfied, sending Nack" end]).
  2: { destruct G as (m & G1 & ->). eexists. split; [exact G1|]. destruct (ua_verbose a); cbn [negb]; [|reflexivity].
       rewrite unlines2. unfold newline, nl. destruct (processSegmentInterest digest P i); rewrite <- !app_assoc; reflexivity. }
  unfold processSegmentInterest.
  assert (S : (exists k, FOR_SEGMENT i k /\
               match last_comp (i_name i) with Some c => if Nat.eqb (length (i_name i)) (length (pr_vprefix P) + 1) then segment_of c else None | None => None end = Some k) \/
              ((forall k, ~ FOR_SEGMENT i k) /\
               match last_comp (i_name i) with Some c => if Nat.eqb (length (i_name i)) (length (pr_vprefix P) + 1) then segment_of c else None | None => None end = None)).
  { destruct (match last_comp (i_name i) with Some c => _ | None => None end) as [k|] eqn:K.
    - left. exists k. split; [|reflexivity]. destruct (last_comp (i_name i)) as [c|] eqn:L; [|discriminate].
      destruct (Nat.eqb_spec (length (i_name i)) (length (pr_vprefix P) + 1)) as [Hl|]; [|discriminate].
      exists c. split; [|exact K]. apply last_comp_some in L. rewrite Hv, app_length in Hl. cbn [length] in Hl.
      destruct C as [C|(rest & C)]; rewrite C in Hl.
      + lia.
      + rewrite C in L |- *. rewrite app_length in Hl. cbn [length] in Hl.
        destruct rest as [|r [|? ?]]; cbn [length] in Hl; try lia.
        pose proof (f_equal last_comp L) as X. rewrite last_comp_app in X.
        change (v :: [r]) with ([v] ++ [r]) in X. rewrite app_assoc, last_comp_app in X. congruence.
    - right. split; [|reflexivity]. intros k (c & N1 & N2). rewrite N1 in K.
      change [v; c] with ([v] ++ [c]) in K. rewrite app_assoc, last_comp_app in K.
      rewrite Hv in K. rewrite !app_length in K. cbn [length] in K. rewrite Nat.eqb_refl in K. congruence. }
  cbv zeta. destruct S as [(k & F & ->)|(F & ->)].
  - pose proof (segment_nth k) as X. destruct (nth_error (pr_store P) (N.to_nat k)) as [d|].
    + eexists. split; [eapply Rs_segment; eauto|reflexivity].
    + eexists. split; [eapply Rs_no_segment; eauto|reflexivity].
  - assert (Fc : FOR_CONTENT i) by (split; assumption).
    pose proof (segment_nth 0) as X. cbn [N.to_nat] in X. change (N.to_nat 0) with O in X.
    destruct (pr_store P) as [|d st] eqn:St.
    { exfalso. cbn [nth_error] in X. apply (chunks_nonempty o input). cbn [po_size]. apply length_zero_iff_nil. lia. }
    cbn [nth_error] in X. destruct (matches_data digest i d) eqn:M.
    + eexists. split; [eapply Rs_first; eauto|reflexivity].
    + eexists. split; [eapply Rs_not_first; eauto|reflexivity].
Qed.
Lemma discovery_reply now w i : is_prefix_of (discovery_name plain) (i_name i) = true ->
  exists m, REPLIES now i (processDiscoveryInterest cv now P i) m /\
    message interest_text data_text (ua_verbose a) (discovery_name plain) (w, i, processDiscoveryInterest cv now P i) = told a m.
Proof.
  intros E. unfold message. rewrite E. apply metadata_rest in E. unfold told, processDiscoveryInterest.
  destruct (i_canBePrefix i) eqn:C; cbn [negb].
  - eexists. split; [eapply Rs_metadata; eauto; unfold metadata_packet; rewrite Hv; reflexivity|].
    destruct (ua_verbose a); cbn [negb]; [|reflexivity]. rewrite unlines2. unfold newline, nl, metadata_packet. rewrite Hv, <- !app_assoc. reflexivity.
  - eexists. split; [now apply Rs_no_metadata|].
    destruct (ua_verbose a); cbn [negb]; [|reflexivity]. rewrite unlines2. unfold newline, nl. rewrite <- !app_assoc. reflexivity.
Qed.

Lemma replies_cases now w i :
  (producer_replies digest cv now P i = [] /\ ~ FOR_CONTENT i /\ ~ for_metadata plain i /\ (forall k, ~ FOR_SEGMENT i k)) \/
  (exists r m, producer_replies digest cv now P i = [r] /\ REPLIES now i r m /\
     message interest_text data_text (ua_verbose a) (discovery_name plain) (w, i, r) = told a m).
Proof.
  destruct (filters_disjoint cv now0 Hnow o size_pos prefix input (i_name i)) as [H1 H2]. unfold producer_replies.
  destruct (is_prefix_of (discovery_name plain) (i_name i)) eqn:Ed.
  - right. destruct (H2 eq_refl) as [Hn ->].
    destruct (name_eqb (i_name i) plain) eqn:E2; [apply name_eqb_spec in E2; contradiction|].
    destruct (discovery_reply now w i Ed) as (m & R & M). exists (processDiscoveryInterest cv now P i), m. auto.
  - destruct (is_prefix_of (pr_vprefix P) (i_name i)) eqn:E1.
    + right. destruct (H1 eq_refl) as [Hn _].
      destruct (name_eqb (i_name i) plain) eqn:E2; [apply name_eqb_spec in E2; contradiction|].
      apply vprefix_rest in E1.
      destruct (segment_reply now w i (or_intror E1) Ed) as (m & R & M). exists (processSegmentInterest digest P i), m. auto.
    + destruct (name_eqb (i_name i) plain) eqn:E2.
      * right. apply name_eqb_spec in E2.
        destruct (segment_reply now w i (or_introl E2) Ed) as (m & R & M). exists (processSegmentInterest digest P i), m. auto.
      * left. split; [reflexivity|].
        assert (NV : forall rest, i_name i <> plain ++ v :: rest).
        { intros rest X. assert (Y : is_prefix_of (pr_vprefix P) (i_name i) = true) by (apply vprefix_rest; eauto). congruence. }
        split; [|split].
        -- intros [[X|(rest & X)] _]; [apply name_eqb_spec in X; congruence|exact (NV rest X)].
        -- intros X. apply metadata_rest in X. congruence.
        -- intros k (c & X & _). exact (NV [c] X).
Qed.

Lemma put_frozen es : forall s, cp_status s <> None -> fold_left stepf es s = s.
Proof.
  induction es as [|e es IH]; intros s H; [reflexivity|]. cbn [fold_left]. unfold ur_step at 2. destruct (cp_status s) eqn:E; [apply IH; congruence|congruence].
Qed.
Lemma can_iff w i r : sendable (sig_sizes sign) (w, i, r) = true <-> can_be_sent sign w r.
Proof. unfold sendable, can_be_sent. destruct r; apply N.leb_le. Qed.

Lemma publishing_run es : forall sent out err,
  exists s e x, PUBLISHING es s e x /\
    ur_result (fold_left stepf es (ChunkServer sent None out err)) = PutResult (sent ++ s) out (err ++ e) x.
Proof.
  induction es as [|ev es IH]; intros sent out err.
  - exists [], [], URunning. split; [constructor|]. cbn. now rewrite !app_nil_r.
  - cbn [fold_left]. destruct ev as [[now w i|reason]|what].
    + unfold ur_step at 2. cbn [cp_status]. unfold cp_step. cbn [cp_status].
      rewrite (onInterest_eq digest sign interest_text data_text u cv now0 Hnow o size_pos prefix input now w i).
      unfold event_answers. destruct (replies_cases now w i) as [(-> & F1 & F2 & F3)|(r & m & -> & R & M)].
      * cbn [map fold_left cp_status]. destruct (IH sent out err) as (s & e & x & H1 & H2).
        exists s, e, x. split; [now apply Pb_foreign|exact H2].
      * cbn [map fold_left]. unfold answer_step. cbn [fst snd pu_verbose]. unfold cp_say. cbn [cp_status]. rewrite M. unfold cp_put. cbn [cp_status].
        rewrite (fits_ok sign name_uri interest_text o size_pos prefix w i r). destruct (sendable (sig_sizes sign) (w, i, r)) eqn:S.
        -- apply can_iff in S. cbn [cp_status cp_sent cp_stdout cp_stderr].
           destruct (IH (sent ++ [r]) out (err ++ told a m)) as (s & e & x & H1 & H2).
           exists (r :: s), (told a m ++ e), x. split; [now apply Pb_replies|]. rewrite H2. now rewrite <- !app_assoc.
        -- assert (NS : ~ can_be_sent sign w r) by (intros X; apply (can_iff w i) in X; congruence).
           cbn [cp_status cp_sent cp_stdout cp_stderr].
           eexists [], _, _. split; [eapply Pb_too_long; eauto|]. rewrite put_frozen by discriminate.
           unfold ur_fail, ur_result. cbn. rewrite unlines1, app_nil_r. unfold newline, nl. now rewrite <- !app_assoc.
    + unfold ur_step at 2. cbn. eexists [], _, _. split; [apply Pb_not_registered|]. rewrite put_frozen by discriminate.
      unfold ur_result. cbn. rewrite unlines1, app_nil_r. unfold newline, nl. now rewrite <- !app_assoc.
    + unfold ur_step at 2. cbn. eexists [], _, _. split; [apply Pb_fails|]. rewrite put_frozen by discriminate.
      unfold ur_fail, ur_result. cbn. rewrite unlines1, app_nil_r. unfold newline, nl. now rewrite <- !app_assoc.
Qed.
End P.

Lemma versioned_spec cv now o prefix input : u64 now ->
  let P := make_producer cv now o prefix input in
  exists v, pr_vprefix P = pr_prefix P ++ [v] /\ is_version v = true /\ versioned cv now prefix (pr_prefix P) v.
Proof.
  intros Hn P. unfold P, make_producer, ends_with_version.
  destruct (last_comp prefix) as [c|] eqn:E.
  - pose proof (last_comp_some _ _ E) as L.
    destruct (is_version c) eqn:V; cbn [pr_prefix pr_vprefix].
    + exists c. split; [exact L|]. split; [exact V|]. apply Vn_given; [exact L|]. unfold is_version in V. destruct (version_of c); congruence.
    + exists (version_comp cv now). split; [reflexivity|]. split; [now apply is_version_comp|]. apply Vn_clock.
      intros p v H. rewrite H, last_comp_app in E. injection E as ->. unfold is_version in V. destruct (version_of c); congruence.
  - exists (version_comp cv now). cbn [pr_prefix pr_vprefix]. split; [reflexivity|]. split; [now apply is_version_comp|]. apply Vn_clock.
    intros p v H. rewrite H, last_comp_app in E. discriminate.
Qed.

Section Q.
Variable digest : packet -> component.
Variable sign : packet -> list N * list N.
Variable name_uri : name -> text.
Variable comp_uri : component -> text.
Variable interest_text : interest -> text.
Variable data_text : packet -> text.
Variable usage version : text.
Variable default_cv : convention.
Variable parse_signing : text -> signing.
Variable parse_name : text -> name + text.
Variable start_error : option text.
Variable load_error : name -> list N -> option text.
Variable put_error : text.
Notation BEHAVES := (put_behaves digest sign name_uri comp_uri interest_text data_text usage version default_cv parse_signing parse_name start_error load_error put_error).
Notation PROGRAM := (put_program digest sign name_uri comp_uri interest_text data_text usage version default_cv parse_signing parse_name start_error load_error put_error).

Theorem put_program_spec cmd now input es : (now < 2 ^ 64)%N -> BEHAVES now input es cmd (PROGRAM cmd now input es).
Proof.
  intros Hnow.
  assert (E : forall what, str "ERROR: " ++ what ++ newline = unlines [str "ERROR: " ++ what]).
  { intros. now rewrite unlines1, <- app_assoc. }
  destruct cmd as [what|a]; cbn -[put_go].
  - rewrite E. apply Ub_wrong.
  - destruct (ua_help a) eqn:Hh; [now apply Ub_help|]. destruct (ua_version a) eqn:Hv; [now apply Ub_version|].
    destruct (ua_prefix a) as [|ch p] eqn:Hp; [now apply Ub_no_prefix|].
    assert (Hp' : ua_prefix a <> []) by congruence.
    pose proof (convention_spec default_cv (ua_conv a)) as C.
    destruct (convention_of default_cv (ua_conv a)) as [cv|].
    2: { rewrite E. apply Ub_complaint; auto. now apply Uc_conv. }
    destruct (Z.ltb_spec (ua_fresh a) 0). { rewrite E. apply Ub_complaint; auto. now apply Uc_fresh with cv. }
    destruct ((ua_size a <? 1)%N || (8800 <? ua_size a)%N) eqn:Sz.
    { rewrite E. apply Ub_complaint; auto. apply Uc_size with cv; auto. intros [S1 S2].
      apply orb_prop in Sz. destruct Sz as [Sz|Sz]; apply N.ltb_lt in Sz; lia. }
    apply orb_false_elim in Sz. destruct Sz as [S1 S2]. apply N.ltb_ge in S1, S2.
    destruct (parse_signing (ua_signing a)) as [|what|] eqn:Sg.
    2: { rewrite E. apply Ub_complaint; auto. now apply Uc_signing with cv. }
    2: { now apply Ub_signing with cv. }
    destruct (ua_quiet a && ua_verbose a) eqn:QV.
    { apply andb_prop in QV. destruct QV. rewrite E. apply Ub_complaint; auto. now apply Uc_both with cv. }
    assert (A : put_accepts default_cv parse_signing a cv).
    { constructor; auto. apply andb_false_iff in QV. exact QV. }
    unfold put_go. cbn [app]. destruct start_error as [what|] eqn:Se.
    { rewrite E. rewrite <- Se. now apply Ub_no_start with cv. }
    destruct (parse_name (ua_prefix a)) as [n|what] eqn:Pn.
    2: { rewrite E. rewrite <- Se. now apply Ub_bad_name with cv. }
    set (o := POpts (N.to_nat (ua_size a)) (ua_fresh a)).
    destruct (versioned_spec cv now o n input Hnow) as (v & V1 & V2 & V3). cbv zeta. rewrite V1.
    destruct (load_error (pr_prefix (make_producer cv now o n input) ++ [v]) input) as [what|] eqn:Le.
    { rewrite <- Se. replace ((if ua_quiet a then [] else str "Loading input ..." ++ newline) ++ str "ERROR: " ++ what ++ newline)
        with (unless_quiet a [str "Loading input ..."] ++ unlines [str "ERROR: " ++ what]).
      - eapply Ub_no_load; eauto.
      - rewrite E. f_equal. }
    destruct (publishing_run digest sign name_uri interest_text data_text put_error a cv now Hnow S1 n input v V1
      es [] (if ua_show a then unlines [comp_uri v] else [])
      (unless_quiet a [ str "Loading input ..."; str "Published " ++ to_string (N.of_nat (length (pieces (N.to_nat (ua_size a)) input))) ++
                        (if Nat.eqb (length (pieces (N.to_nat (ua_size a)) input)) 1 then str " Data packet" else str " Data packets") ++
                        str " with prefix " ++ name_uri (pr_prefix (make_producer cv now o n input) ++ [v]) ])) as (s & e & x & R1 & R2).
    match goal with |- put_behaves _ _ _ _ _ _ _ _ _ _ _ _ _ _ _ _ _ _ ?r => replace r with
      (PutResult s (if ua_show a then unlines [comp_uri v] else [])
        (unless_quiet a [ str "Loading input ..."; str "Published " ++ to_string (N.of_nat (length (pieces (N.to_nat (ua_size a)) input))) ++
                        (if Nat.eqb (length (pieces (N.to_nat (ua_size a)) input)) 1 then str " Data packet" else str " Data packets") ++
                        str " with prefix " ++ name_uri (pr_prefix (make_producer cv now o n input) ++ [v]) ] ++ e) x) end.
    { rewrite <- Se. eapply Ub_run; eauto. apply pieces_segmentation. lia. }
    cbn [app] in R2. rewrite <- R2. f_equal. f_equal. unfold cp_start. cbn [pu_showVersion pu_quiet]. rewrite V1, last_comp_app.
    f_equal.
    + destruct (ua_show a); [|reflexivity]. now rewrite unlines1.
    + unfold unless_quiet. destruct (ua_quiet a); [reflexivity|].
      rewrite unlines2. rewrite store_eq, make_segments_length. cbn [o po_size].
      pose proof (chunks_nonempty o input) as NE. cbn [o po_size] in NE.
      destruct (pieces (N.to_nat (ua_size a)) input) as [|c1 [|c2 l]]; [congruence| |]; cbn [length Nat.ltb Nat.leb Nat.eqb];
        unfold newline, nl; rewrite <- !app_assoc; reflexivity.
Qed.

Notation PUBLISHING := (publishing digest sign name_uri interest_text data_text put_error).
Lemma publishing_sent a cv plain v chunks es s e x : PUBLISHING a cv plain v chunks es s e x ->
  forall d, In (RpData d) s -> (exists k, segment a cv plain v chunks k d) \/
    (exists now w i, In (UServe (CpInterest now w i)) es /\ for_metadata plain i /\
       d = Packet (i_name i ++ [version_comp cv now; segment_comp cv 0]) (encode_name (plain ++ [v])) None 10).
Proof.
  induction 1; intros d' I; try contradiction.
  - destruct (IHpublishing d' I) as [J|(t & w' & j & J1 & J2)]; [now left|right]. exists t, w', j. split; [now right|exact J2].
  - destruct I as [I|I].
    + subst r. inversion H; subst; eauto. right. exists now, w, i. split; [now left|]. auto.
    + destruct (IHpublishing d' I) as [J|(t & w' & j & J1 & J2)]; [now left|right]. exists t, w', j. split; [now right|exact J2].
Qed.
Lemma publishing_zero a cv plain v chunks es s e x : PUBLISHING a cv plain v chunks es s e x -> x = UExited 0 ->
  exists reason front, In (UServe (CpRegFailure reason)) es /\
    e = front ++ unlines [str "ERROR: Failed to register prefix '" ++ name_uri plain ++ str "' (" ++ reason ++ str ")"].
Proof.
  induction 1; intros X; try discriminate.
  - destruct (IHpublishing X) as (r & f & I & E). exists r, f. split; [now right|exact E].
  - destruct (IHpublishing X) as (r' & f & I & E). exists r', (told a m ++ f). split; [now right|]. now rewrite E, <- app_assoc.
  - exists reason, []. split; [now left|reflexivity].
Qed.
Lemma behaves_sent now input es a r : BEHAVES now input es (inr a) r -> uo_sent r <> [] ->
  exists cv n plain v chunks, put_accepts default_cv parse_signing a cv /\ parse_name (ua_prefix a) = inl n /\
    versioned cv now n plain v /\ segmentation (N.to_nat (ua_size a)) input chunks /\
    forall d, In (RpData d) (uo_sent r) -> (exists k, segment a cv plain v chunks k d) \/
      (exists now' w i, In (UServe (CpInterest now' w i)) es /\ for_metadata plain i /\
         d = Packet (i_name i ++ [version_comp cv now'; segment_comp cv 0]) (encode_name (plain ++ [v])) None 10).
Proof.
  intros B NE. inversion B; subst; cbn [uo_sent complains] in *; try congruence.
  exists cv, n, plain, v, chunks. do 4 (split; [assumption|]). eapply publishing_sent; eassumption.
Qed.
Lemma behaves_zero now input es a r : BEHAVES now input es (inr a) r -> ua_help a = false -> ua_version a = false -> uo_end r = UExited 0 ->
  exists reason front plain, In (UServe (CpRegFailure reason)) es /\
    uo_stderr r = front ++ unlines [str "ERROR: Failed to register prefix '" ++ name_uri plain ++ str "' (" ++ reason ++ str ")"].
Proof.
  intros B Hh Hv X. inversion B; subst; cbn [uo_end uo_stderr complains] in *; try congruence; try discriminate.
  match goal with H : publishing _ _ _ _ _ _ _ _ _ _ _ _ _ _ _ |- _ => destruct (publishing_zero _ _ _ _ _ _ _ _ _ H X) as (reason & f & I & E) end.
  subst e. eexists reason, _, plain. split; [exact I|]. rewrite app_assoc. reflexivity.
Qed.
End Q.
