(** The output and the exit status of ndnputchunks. *)
From Verif Require Import Base BaseFacts TlvModel TlvProofs PingModel PeekModel PeekPokeModel PutchunksModel PutchunksProofs ServeModel ServeSpec ServeProofs DumpModel.
From Coq Require Import String.
From Coq Require Import List.
Import ListNotations.
Local Open Scope list_scope.
Local Open Scope N_scope.

Lemma pieces_count size input : (0 < size)%nat -> N.of_nat (List.length (pieces size input)) = pieces_needed size input.
Proof.
  intros H. unfold pieces, pieces_needed, octets.
  enough (G : forall fuel l, (List.length l <= fuel)%nat ->
    N.of_nat (List.length (PutchunksModel.split fuel size l)) = N.max 1 ((N.of_nat (List.length l) + N.of_nat size - 1) / N.of_nat size)) by (apply G; lia).
  assert (Small : forall m, (m <= size)%nat -> N.max 1 ((N.of_nat m + N.of_nat size - 1) / N.of_nat size) = 1).
  { intros m Hm. assert ((N.of_nat m + N.of_nat size - 1) / N.of_nat size < 2); [apply N.div_lt_upper_bound; lia|lia]. }
  induction fuel as [|fuel IH]; intros l Hl.
  - cbn [PutchunksModel.split List.length]. rewrite Small by lia. reflexivity.
  - cbn [PutchunksModel.split]. destruct (Nat.leb_spec (List.length l) size) as [L|L].
    + cbn [List.length]. rewrite Small by lia. reflexivity.
    + cbn [List.length]. rewrite Nat2N.inj_succ, IH by (rewrite skipn_length; lia). rewrite skipn_length.
      set (m := List.length l) in *. set (z := N.of_nat size). assert (Z : 0 < z) by (unfold z; lia).
      replace (N.of_nat m + z - 1) with ((N.of_nat (m - size) + z - 1) + 1 * z) by (unfold z; lia).
      rewrite N.div_add by lia.
      assert (1 <= (N.of_nat (m - size) + z - 1) / z) by (apply N.div_le_lower_bound; lia). lia.
Qed.

Lemma drop_drop {A} b : forall a (l : list A), skipn b (skipn a l) = skipn (a + b) l.
Proof.
  induction a as [|a IH]; intros l; [reflexivity|]. destruct l as [|x l]; [now rewrite !skipn_nil|]. cbn [skipn Nat.add]. apply IH.
Qed.

Section Putchunks.
Variable digest : packet -> component.
Variable sign : packet -> list N * list N.
Variable name_uri : name -> text.
Variable comp_uri : component -> text.
Variable interest_text : interest -> text.
Variable data_text : packet -> text.
Variable u : putopts.
Variable cv : convention.
Variable now0 : N.
Hypothesis Hnow : u64 now0.
Variable o : popts.
Hypothesis Hsize : (0 < po_size o)%nat.
Variable prefix : name.
Variable input : list N.
Notation P := (make_producer cv now0 o prefix input).
Notation run := (cp_run digest sign name_uri comp_uri interest_text data_text u cv P).
Notation step := (cp_step digest sign name_uri interest_text data_text u cv P).
Notation answer := (nat * interest * reply)%type.
Notation msg := (message interest_text data_text (pu_verbose u) (discovery_name (pr_prefix P))).
Notation ok := (sendable (sig_sizes sign)).
Notation good := (up_to_unsendable (sig_sizes sign)).

Definition answer_step (s : chunkserver) (a : answer) : chunkserver :=
  cp_put sign (fst (fst a)) (cp_say (msg a) s) (snd a).
Definition event_answers (e : cpevent) : list answer :=
  match e with CpInterest now w i => map (fun r => (w, i, r)) (producer_replies digest cv now P i) | CpRegFailure _ => [] end.

Lemma say_say a b s : cp_say b (cp_say a s) = cp_say (a ++ b) s.
Proof. unfold cp_say. destruct s as [se st so er]. cbn. destruct st; [reflexivity|]. cbn. now rewrite app_assoc. Qed.
Lemma fits_ok w i r : reply_fits sign w r = ok (w, i, r).
Proof.
  destruct r as [d|]; cbn [reply_fits sendable].
  - apply data_fits_size.
  - unfold nack_length. set (t := tlv ServeModel.TLpPacket (tlv TLpNack [] ++ tlv TLpFragment (repeat 0 w))).
    assert (E : octets t = elem_size 100 (elem_size 800 0 + elem_size 80 (N.of_nat w))).
    { unfold t. rewrite tlv_len, octets_app, !tlv_len, octets_repeat. reflexivity. }
    rewrite <- E. unfold octets, max_packet. change (8 * 1100)%nat with (N.to_nat 8800).
    destruct (N.leb_spec (N.of_nat (List.length t)) 8800) as [H|H]; [apply Nat.leb_le|apply Nat.leb_gt]; lia.
Qed.
Lemma onInterest_eq now w i s :
  cp_onInterest digest sign interest_text data_text u cv now P w i s = fold_left answer_step (event_answers (CpInterest now w i)) s.
Proof.
  unfold cp_onInterest, event_answers, producer_replies.
  destruct (filters_disjoint cv now0 Hnow o Hsize prefix input (i_name i)) as [H1 H2].
  assert (Seg : is_prefix_of (discovery_name (pr_prefix P)) (i_name i) = false ->
    forall s, cp_segment digest sign interest_text data_text u P w i s = answer_step s (w, i, processSegmentInterest digest P i)).
  { intros E s0. unfold cp_segment, answer_step. cbn [fst snd]. rewrite say_say. f_equal. f_equal. unfold message. rewrite E.
    destruct (pu_verbose u); cbn [negb]; [|reflexivity]. destruct (processSegmentInterest digest P i); rewrite <- ?app_assoc; reflexivity. }
  assert (Disc : is_prefix_of (discovery_name (pr_prefix P)) (i_name i) = true ->
    forall s, cp_discovery sign interest_text data_text u cv now P w i s = answer_step s (w, i, processDiscoveryInterest cv now P i)).
  { intros E s0. unfold cp_discovery, answer_step. cbn [fst snd]. rewrite say_say. f_equal. f_equal. unfold message. rewrite E.
    destruct (pu_verbose u); cbn [negb]; [|reflexivity]. destruct (processDiscoveryInterest cv now P i); rewrite <- ?app_assoc; reflexivity. }
  destruct (is_prefix_of (discovery_name (pr_prefix P)) (i_name i)) eqn:Ed.
  - destruct (H2 eq_refl) as [Hn Hv]. rewrite Hv.
    destruct (name_eqb (i_name i) (pr_prefix P)) eqn:E2; [apply name_eqb_spec in E2; contradiction|].
    cbn [app map fold_left]. apply Disc; reflexivity.
  - destruct (is_prefix_of (pr_vprefix P) (i_name i)), (name_eqb (i_name i) (pr_prefix P)); cbn [app map fold_left];
      rewrite ?Seg by reflexivity; reflexivity.
Qed.

Lemma ended_forever es s : cp_status s <> None -> fold_left step es s = s.
Proof.
  intros H. induction es as [|e es IH]; [reflexivity|]. cbn [fold_left]. unfold cp_step at 2. destruct (cp_status s); [exact IH|congruence].
Qed.
Lemma ended_answers l s : cp_status s <> None -> fold_left answer_step l s = s.
Proof.
  intros H. induction l as [|a l IH]; [reflexivity|]. cbn [fold_left]. unfold answer_step at 2, cp_put, cp_say.
  destruct (cp_status s) eqn:E; [rewrite E; exact IH|congruence].
Qed.
Lemma answers_run l : forall s, cp_status s = None ->
  fold_left answer_step l s =
  ChunkServer (cp_sent s ++ map snd (good l)) (if Nat.ltb (List.length (good l)) (List.length l) then Some 1%Z else None)
    (cp_stdout s) (cp_stderr s ++ flat_map msg (firstn (S (List.length (good l))) l)).
Proof.
  induction l as [|[[w i] r] l IH]; intros [se st so er] E; cbn in E; subst st.
  - cbn. now rewrite !app_nil_r.
  - cbn [fold_left]. unfold answer_step at 2. unfold cp_say, cp_put. cbn [cp_status cp_sent cp_stdout cp_stderr fst snd].
    rewrite (fits_ok w i r). cbn [up_to_unsendable]. destruct (ok (w, i, r)) eqn:Ea.
    + rewrite IH by reflexivity. cbn [cp_sent cp_stdout cp_stderr map snd List.length]. f_equal.
      * now rewrite <- app_assoc.
      * rewrite firstn_cons. cbn [flat_map]. now rewrite <- app_assoc.
    + rewrite ended_answers by discriminate. cbn [map List.length firstn flat_map]. rewrite !app_nil_r. reflexivity.
Qed.

Definition all_answers (es : list cpevent) : list answer := flat_map event_answers (before_failure es).
Definition error_line (r : text) : text :=
  str "ERROR: Failed to register prefix '" ++ name_uri (pr_prefix P) ++ str "' (" ++ r ++ str ")" ++ newline.
Lemma good_le l : (List.length (good l) <= List.length l)%nat.
Proof. induction l as [|i l IH]; cbn [up_to_unsendable]; [lia|]. destruct (ok i); cbn [List.length]; lia. Qed.

Lemma events_run es : forall s, cp_status s = None ->
  fold_left step es s =
  let R := all_answers es in let G := good R in
  let bad := Nat.ltb (List.length G) (List.length R) in
  ChunkServer (cp_sent s ++ map snd G)
    (if bad then Some 1%Z else match failure_reason es with Some _ => Some 0%Z | None => None end)
    (cp_stdout s)
    (cp_stderr s ++ flat_map msg (firstn (S (List.length G)) R) ++
     (if bad then [] else match failure_reason es with Some r => error_line r | None => [] end)).
Proof.
  induction es as [|e es IH]; intros s E.
  - destruct s as [se st so er]. cbn in E. subst st. cbn. now rewrite !app_nil_r.
  - cbn [fold_left]. unfold cp_step at 2. rewrite E. destruct e as [now w i|r].
    2: { rewrite ended_forever by discriminate. cbn. now rewrite !app_nil_r. }
    rewrite onInterest_eq. set (A := event_answers (CpInterest now w i)). rewrite (answers_run A s E).
    change (all_answers (CpInterest now w i :: es)) with (A ++ all_answers es).
    change (failure_reason (CpInterest now w i :: es)) with (failure_reason es). cbv zeta.
    destruct (Nat.ltb_spec (List.length (good A)) (List.length A)) as [L|L].
    + assert (G : good (A ++ all_answers es) = good A).
      { clear -L. induction A as [|a A IH]; cbn [up_to_unsendable app List.length] in *; [lia|].
        destruct (ok a); [|reflexivity]. cbn [List.length] in L. rewrite IH by lia. reflexivity. }
      rewrite G. replace (Nat.ltb _ (List.length (A ++ all_answers es))) with true by (symmetry; apply Nat.ltb_lt; rewrite app_length; lia).
      rewrite ended_forever by discriminate. f_equal. rewrite app_nil_r. f_equal. f_equal.
      rewrite firstn_app. replace (S (List.length (good A)) - List.length A)%nat with 0%nat by lia. cbn [firstn]. now rewrite app_nil_r.
    + assert (EA : good A = A).
      { clear -L. induction A as [|a A IH]; cbn [up_to_unsendable List.length] in *; [reflexivity|].
        destruct (ok a); cbn [List.length] in L; [|lia]. rewrite IH by lia. reflexivity. }
      assert (G : good (A ++ all_answers es) = A ++ good (all_answers es)).
      { clear -EA. induction A as [|a A IH]; cbn [up_to_unsendable app] in *; [reflexivity|].
        destruct (ok a); [|discriminate]. injection EA as EA. rewrite IH by exact EA. reflexivity. }
      rewrite IH by reflexivity. cbv zeta. cbn [cp_sent cp_stdout cp_stderr]. rewrite G, EA, !app_length.
      replace (Nat.ltb (List.length A + List.length (good (all_answers es))) (List.length A + List.length (all_answers es)))
        with (Nat.ltb (List.length (good (all_answers es))) (List.length (all_answers es)))
        by (apply Bool.eq_iff_eq_true; rewrite !Nat.ltb_lt; lia).
      f_equal.
      * now rewrite map_app, <- app_assoc.
      * rewrite <- !app_assoc. f_equal. rewrite (firstn_all2 A) by lia.
        rewrite firstn_app, (firstn_all2 A) by lia.
        replace (S (List.length A + List.length (good (all_answers es))) - List.length A)%nat with (S (List.length (good (all_answers es)))) by lia.
        rewrite flat_map_app, <- !app_assoc. reflexivity.
Qed.

Lemma start_text : cp_stderr (cp_start name_uri comp_uri u P) = greeting name_uri (pu_quiet u) (pieces_needed (po_size o) input) (pr_vprefix P).
Proof.
  unfold cp_start, greeting. cbn [cp_stderr]. destruct (pu_quiet u); [reflexivity|].
  assert (E : N.of_nat (List.length (pr_store P)) = pieces_needed (po_size o) input)
    by (rewrite store_eq, make_segments_length; now apply pieces_count).
  rewrite <- E.
  destruct (Nat.ltb_spec 1 (List.length (pr_store P))) as [L|L];
    destruct (N.ltb_spec 1 (N.of_nat (List.length (pr_store P)))) as [M|M]; try lia; reflexivity.
Qed.

Theorem chunks_program es :
  let R := flat_map (fun e => match e with
                              | CpInterest now w i => map (fun r => (w, i, r)) (producer_replies digest cv now P i)
                              | CpRegFailure _ => [] end) (before_failure es) in
  let G := good R in let bad := Nat.ltb (List.length G) (List.length R) in
  cp_sent (run es) = map snd G /\
  cp_status (run es) = (if bad then Some 1%Z else match failure_reason es with Some _ => Some 0%Z | None => None end) /\
  cp_stdout (run es) = (if pu_showVersion u then match last_comp (pr_vprefix P) with Some c => comp_uri c | None => [] end ++ newline else []) /\
  cp_stderr (run es) = greeting name_uri (pu_quiet u) (pieces_needed (po_size o) input) (pr_vprefix P) ++
    flat_map msg (firstn (S (List.length G)) R) ++
    (if bad then [] else match failure_reason es with
                         | Some r => str "ERROR: Failed to register prefix '" ++ name_uri (pr_prefix P) ++ str "' (" ++ r ++ str ")" ++ newline
                         | None => [] end).
Proof. cbv zeta. unfold cp_run. rewrite events_run by reflexivity. cbv zeta. rewrite start_text. repeat split. Qed.

(** * Sizes *)
Definition sig_at_most (m : N) : Prop := forall d, fst (sig_sizes sign d) + snd (sig_sizes sign d) <= m.
Lemma number_comp_size t m n : (t <? 253) = true -> comp_size (number_comp t m cv n) <= 11.
Proof.
  intros T. pose proof (number_le n) as B. unfold number_comp, comp_size. destruct cv; cbn [c_type c_value].
  - rewrite nni_len, elem_small by (auto; lia). lia.
  - replace (octets (m :: nni n)) with (1 + number_size n) by (rewrite <- nni_len; unfold octets; cbn [List.length]; lia).
    rewrite elem_small by (auto; lia). lia.
Qed.
Lemma fresh_size f : (if (0 <? f)%Z then elem_size 25 (number_size (Z.to_N f)) else 0) <= 10.
Proof.
  destruct (0 <? f)%Z; [|lia]. pose proof (number_le (Z.to_N f)).
  rewrite elem_small by (auto; lia). lia.
Qed.
Lemma piece_nth fuel : forall l k c, (List.length l <= fuel)%nat -> nth_error (PutchunksModel.split fuel (po_size o) l) k = Some c ->
  c = firstn (po_size o) (skipn (k * po_size o) l).
Proof.
  induction fuel as [|fuel IH]; intros l k c Hl.
  - destruct l; [|cbn in Hl; lia]. cbn [PutchunksModel.split]. destruct k as [|k]; [|destruct k; discriminate]. intros [= <-].
    now rewrite skipn_nil, firstn_nil.
  - cbn [PutchunksModel.split]. destruct (Nat.leb_spec (List.length l) (po_size o)) as [L|L].
    + destruct k as [|k]; [|destruct k; discriminate]. intros [= <-]. cbn [Nat.mul skipn]. now rewrite firstn_all2 by lia.
    + destruct k as [|k]; cbn [nth_error].
      * intros [= <-]. reflexivity.
      * intros E. apply IH in E; [|rewrite skipn_length; lia]. rewrite E, drop_drop. reflexivity.
Qed.
Lemma segment_sendable m w i k last c : sig_at_most m -> (List.length c <= po_size o)%nat ->
  name_size (pr_vprefix P) + N.of_nat (po_size o) + m <= 8744 ->
  ok (w, i, RpData (make_segment cv (pr_vprefix P) (po_fresh o) last k c)) = true.
Proof.
  intros Hm Hc H. cbn [sendable]. set (d := make_segment _ _ _ _ _ _). specialize (Hm d). set (a := fst _) in *. set (b := snd _) in *.
  apply N.leb_le. unfold packet_size, max_packet. cbn [d make_segment k_name k_content k_fbi k_fresh].
  rewrite name_size_app. replace (name_size [segment_comp cv k]) with (comp_size (segment_comp cv k)) by (unfold name_size; cbn [map fold_right]; lia).
  pose proof (number_comp_size TSegment MSegment k eq_refl) as B1. pose proof (number_comp_size TSegment MSegment last eq_refl) as B2.
  fold (segment_comp cv k) in B1. fold (segment_comp cv last) in B2. fold segment_comp in B1, B2.
  pose proof (fresh_size (po_fresh o)) as B3. set (f := if (0 <? po_fresh o)%Z then _ else _) in *.
  rewrite (elem_small 26) by (auto; lia). rewrite (elem_small 20) by (auto; lia).
  assert (C : octets c <= N.of_nat (po_size o)) by (unfold octets; lia).
  assert (E1 : elem_size 7 (name_size (pr_vprefix P) + comp_size (segment_comp cv k)) <= 4 + (name_size (pr_vprefix P) + comp_size (segment_comp cv k))) by (apply elem_le; [reflexivity|lia]).
  assert (E2 : elem_size 21 (octets c) <= 4 + octets c) by (apply elem_le; [reflexivity|lia]).
  assert (E3 : elem_size 22 a <= 4 + a) by (apply elem_le; [reflexivity|lia]).
  assert (E4 : elem_size 23 b <= 4 + b) by (apply elem_le; [reflexivity|lia]).
  eapply N.le_trans; [apply elem_le; [reflexivity|lia]|lia].
Qed.
Lemma metadata_sendable m w i now : sig_at_most m ->
  name_size (i_name i) + name_size (pr_vprefix P) + m <= 8749 ->
  ok (w, i, RpData (metadata_packet cv now (pr_vprefix P) (i_name i))) = true.
Proof.
  intros Hm H. cbn [sendable]. set (d := metadata_packet _ _ _ _). specialize (Hm d). set (a := fst _) in *. set (b := snd _) in *.
  apply N.leb_le. unfold packet_size, max_packet. cbn [d metadata_packet k_name k_content k_fbi k_fresh].
  rewrite name_size_app. replace (name_size [version_comp cv now; segment_comp cv 0]) with (comp_size (version_comp cv now) + comp_size (segment_comp cv 0)) by (unfold name_size; cbn [map fold_right]; lia).
  pose proof (number_comp_size TVersion MVersion now eq_refl) as B1. pose proof (number_comp_size TSegment MSegment 0 eq_refl) as B2.
  fold version_comp in B1. fold segment_comp in B2.
  change (elem_size 20 _) with 5.
  assert (C : octets (encode_name (pr_vprefix P)) = elem_size 7 (name_size (pr_vprefix P))).
  { unfold encode_name. rewrite tlv_len. now rewrite name_len. }
  rewrite C.
  assert (E0 : elem_size 7 (name_size (pr_vprefix P)) <= 4 + name_size (pr_vprefix P)) by (apply elem_le; [reflexivity|lia]).
  set (n := name_size (i_name i) + (comp_size (version_comp cv now) + comp_size (segment_comp cv 0))).
  assert (E1 : elem_size 7 n <= 4 + n) by (apply elem_le; [reflexivity|unfold n; lia]).
  assert (E2 : elem_size 21 (elem_size 7 (name_size (pr_vprefix P))) <= 4 + elem_size 7 (name_size (pr_vprefix P))) by (apply elem_le; [reflexivity|lia]).
  assert (E3 : elem_size 22 a <= 4 + a) by (apply elem_le; [reflexivity|lia]).
  assert (E4 : elem_size 23 b <= 4 + b) by (apply elem_le; [reflexivity|lia]).
  assert (n <= name_size (i_name i) + 22) by (unfold n; lia).
  eapply N.le_trans; [apply elem_le; [reflexivity|lia]|lia].
Qed.
Lemma nack_sendable w i : (N.of_nat w <= 8788) -> ok (w, i, RpNack) = true.
Proof.
  intros H. cbn [sendable]. apply N.leb_le. unfold max_packet. change (elem_size 800 0) with 4.
  assert (elem_size 80 (N.of_nat w) <= 4 + N.of_nat w) by (apply elem_le; [reflexivity|lia]).
  eapply N.le_trans; [apply elem_le; [reflexivity|lia]|lia].
Qed.

Notation answers_of es := (flat_map (fun e => match e with
                              | CpInterest now w i => map (fun r => (w, i, r)) (producer_replies digest cv now P i)
                              | CpRegFailure _ => [] end) (before_failure es)).
Lemma good_full l : forallb ok l = true -> good l = l.
Proof. induction l as [|a l IH]; cbn [forallb up_to_unsendable]; [reflexivity|]. destruct (ok a); [|discriminate]. cbn. intros H. now rewrite IH. Qed.
Lemma store_in d : In d (pr_store P) -> exists last k c, d = make_segment cv (pr_vprefix P) (po_fresh o) last k c /\ (List.length c <= po_size o)%nat.
Proof.
  intros H. apply In_nth_error in H. destruct H as (k & H). rewrite store_nth in H.
  destruct (nth_error (pieces (po_size o) input) k) as [c|] eqn:E; [|discriminate]. injection H as <-. do 3 eexists. split; [reflexivity|].
  apply piece_nth in E; [|lia]. rewrite E. rewrite firstn_length. lia.
Qed.
Lemma reply_cases now i r : In r (producer_replies digest cv now P i) ->
  r = RpNack \/ (exists d, r = RpData d /\ In d (pr_store P)) \/
  (is_prefix_of (discovery_name (pr_prefix P)) (i_name i) = true /\ r = RpData (metadata_packet cv now (pr_vprefix P) (i_name i))).
Proof.
  assert (S : forall r, r = processSegmentInterest digest P i -> r = RpNack \/ (exists d, r = RpData d /\ In d (pr_store P))).
  { intros r0 ->. unfold processSegmentInterest. destruct (match last_comp (i_name i) with Some c => _ | None => None end).
    - destruct (nth_error (pr_store P) (N.to_nat n)) as [d|] eqn:E; [|now left]. right. exists d. split; [reflexivity|]. now apply nth_error_In in E.
    - destruct (pr_store P) as [|d l] eqn:E; [now left|]. destruct (matches_data digest i d); [|now left]. right. exists d. split; [reflexivity|]. now left. }
  unfold producer_replies. rewrite !in_app_iff. intros [H|[H|H]].
  - destruct (is_prefix_of (pr_vprefix P) (i_name i)); [|destruct H]. destruct H as [H|[]]. destruct (S r (eq_sym H)); auto.
  - destruct (name_eqb (i_name i) (pr_prefix P)); [|destruct H]. destruct H as [H|[]]. destruct (S r (eq_sym H)); auto.
  - destruct (is_prefix_of (discovery_name (pr_prefix P)) (i_name i)); [|destruct H]. destruct H as [H|[]].
    unfold processDiscoveryInterest in H. destruct (negb (i_canBePrefix i)); auto.
Qed.
Theorem chunks_never_fail m es : sig_at_most m ->
  name_size (pr_vprefix P) + N.of_nat (po_size o) + m <= 8744 ->
  (forall now w i, In (CpInterest now w i) es -> N.of_nat w <= 8788 /\
     (is_prefix_of (discovery_name (pr_prefix P)) (i_name i) = true -> name_size (i_name i) + name_size (pr_vprefix P) + m <= 8749)) ->
  cp_status (run es) <> Some 1%Z /\
  cp_sent (run es) = flat_map (fun e => match e with CpInterest now _ i => producer_replies digest cv now P i | CpRegFailure _ => [] end) (before_failure es).
Proof.
  intros Hm Hv Hes. destruct (chunks_program es) as (S1 & S2 & _). cbv zeta in S1, S2.
  assert (Hall : forallb ok (answers_of es) = true).
  { apply forallb_forall. intros a Ha. apply in_flat_map in Ha. destruct Ha as (e & He & Ha).
    assert (In e es) by (clear -He; induction es as [|x es IH]; cbn in He; [destruct He|]; destruct x; cbn in He; [destruct He as [->|He]; [now left|right; auto]|destruct He]).
    destruct e as [now w i|]; [|destruct Ha]. apply in_map_iff in Ha. destruct Ha as (r & <- & Hr).
    destruct (Hes now w i H) as [W D]. apply reply_cases in Hr. destruct Hr as [->|[(d & -> & Hd)|(Hp & ->)]].
    - now apply nack_sendable.
    - apply store_in in Hd. destruct Hd as (la & k & c & -> & Hc). now apply segment_sendable with m.
    - apply metadata_sendable with m; [exact Hm|]. apply D, Hp. }
  rewrite (good_full _ Hall) in S1, S2. rewrite Nat.ltb_irrefl in S2. split.
  - rewrite S2. destruct (failure_reason es); discriminate.
  - rewrite S1. generalize (before_failure es). intros l. induction l as [|e l IH]; [reflexivity|]. cbn [flat_map]. rewrite map_app, IH. f_equal.
    destruct e; [|reflexivity]. rewrite map_map. apply map_id.
Qed.

Lemma status_snoc es e : cp_status (run es) = None -> run (es ++ [e]) = step (run es) e.
Proof. intros _. unfold cp_run. now rewrite fold_left_app. Qed.
Lemma pieces_nth k : k < pieces_needed (po_size o) input ->
  nth_error (pieces (po_size o) input) (N.to_nat k) = Some (firstn (po_size o) (skipn (N.to_nat k * po_size o) input)).
Proof.
  intros H. rewrite <- pieces_count in H by exact Hsize.
  destruct (nth_error (pieces (po_size o) input) (N.to_nat k)) as [c|] eqn:E.
  - apply piece_nth in E; [|lia]. now rewrite E.
  - apply nth_error_None in E. lia.
Qed.
Theorem segment_served m es now w cbp mbf k : sig_at_most m ->
  name_size (pr_vprefix P) + N.of_nat (po_size o) + m <= 8744 ->
  u64 k -> k < pieces_needed (po_size o) input ->
  cp_status (run es) = None ->
  let s' := run (es ++ [CpInterest now w (Interest (pr_vprefix P ++ [segment_comp cv k]) cbp mbf)]) in
  cp_status s' = None /\
  cp_sent s' = cp_sent (run es) ++
    [RpData (Packet (pr_vprefix P ++ [segment_comp cv k]) (firstn (po_size o) (skipn (N.to_nat k * po_size o) input))
                    (Some (segment_comp cv (pieces_needed (po_size o) input - 1))) (po_fresh o))].
Proof.
  intros Hm Hv Hu Hk Es. cbv zeta. rewrite (status_snoc _ _ Es). unfold cp_step. rewrite Es, onInterest_eq.
  unfold event_answers. rewrite (replies_segment digest cv now0 Hnow o Hsize prefix input now mbf cbp k Hu), (pieces_nth k Hk).
  cbn [map]. rewrite answers_run by exact Es.
  set (c := firstn _ _).
  replace (N.of_nat (List.length (pieces (po_size o) input) - 1)) with (pieces_needed (po_size o) input - 1) by (rewrite <- pieces_count by exact Hsize; lia).
  set (d := Packet _ _ _ _).
  assert (K : forall i, ok (w, i, RpData d) = true).
  { intros i. apply (segment_sendable m w i k (pieces_needed (po_size o) input - 1) c Hm); [|exact Hv]. unfold c. rewrite firstn_length. lia. }
  cbn [up_to_unsendable]. rewrite K. split; reflexivity.
Qed.

Theorem chunks_can_be_ended : name_size (pr_prefix P) <= 8490 ->
  exists i, interest_size i = 8800 /\
    forall es now, cp_status (run es) = None -> cp_status (run (es ++ [CpInterest now (N.to_nat 8800) i])) = Some 1%Z.
Proof.
  intros H. assert (Hd : name_size (discovery_name (pr_prefix P)) <= 8500).
  { unfold discovery_name. rewrite name_size_app. change (name_size [metadata_comp]) with 10. lia. }
  exists (Interest (long_name (discovery_name (pr_prefix P))) false false). split; [now apply long_interest_size|].
  intros es now Es. set (i := Interest _ _ _). rewrite (status_snoc _ _ Es). unfold cp_step. rewrite Es, onInterest_eq.
  unfold event_answers.
  assert (Pd : is_prefix_of (discovery_name (pr_prefix P)) (i_name i) = true) by (cbn [i i_name]; unfold long_name; apply prefix_long).
  assert (R : producer_replies digest cv now P i = [RpNack]).
  { destruct (filters_disjoint cv now0 Hnow o Hsize prefix input (i_name i)) as [_ H2]. destruct (H2 Pd) as [Hn Hvv].
    unfold producer_replies. rewrite Hvv, Pd. destruct (name_eqb (i_name i) (pr_prefix P)) eqn:E2; [apply name_eqb_spec in E2; contradiction|].
    reflexivity. }
  rewrite R. cbn [map]. rewrite answers_run by exact Es. cbn [up_to_unsendable].
  replace (ok (N.to_nat 8800, i, RpNack)) with false; [reflexivity|].
  symmetry. cbn [sendable]. rewrite N2Nat.id. reflexivity.
Qed.
End Putchunks.
