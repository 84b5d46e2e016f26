(** Lemmas about the Interest of ndnpeek. *)
From Verif Require Import Base BaseFacts TlvModel TlvProofs PeekModel PeekPokeModel PeekPokeProofs PeekWireModel PeekWireSpec.

Lemma put_spec n v : (length (filter is_params_digest n) <= 1)%nat -> with_digest n (put_params_digest n (Comp TParametersDigest v)) v.
Proof.
  induction n as [|x n IH]; cbn [filter put_params_digest].
  - intros _. right. split; [intros c []|reflexivity].
  - destruct (is_params_digest x) eqn:E; cbn [length].
    + intros _. left. exists [], x, n. repeat split. now apply N.eqb_eq.
    + intros H. apply N.eqb_neq in E. destruct (IH H) as [(a & c & b & -> & Hc & Hp)|[H1 H2]].
      * left. exists (x :: a), c, b. repeat split; auto. cbn [app]. now rewrite Hp.
      * right. split; [intros c [->|Hc]; auto|]. cbn [app]. now rewrite H2.
Qed.

Section Wire.
Variable sha256 : list N -> list N.

(** what [interest_fields] contains *)
Lemma fields_spec nonce f es : es = interest_fields nonce f ->
  has es 7 (flat_map (fun c => tlv (c_type c) (c_value c)) (i_name (fi_interest f))) /\
  flag es 33 (i_canBePrefix (fi_interest f)) /\ flag es 18 (i_mustBeFresh (fi_interest f)) /\
  (if match fi_hint f with [] => true | _ => false end then lacks es 30 else has es 30 (flat_map encode_name (fi_hint f))) /\
  has es 10 nonce /\
  (if Z.eqb (fi_lifetime f) 4000 then lacks es 12 else has es 12 (nni (Z.to_N (fi_lifetime f)))) /\
  match fi_hopLimit f with Some h => has es 34 [h] | None => lacks es 34 end /\
  match fi_params f with Some p => has es 36 p | None => lacks es 36 end.
Proof.
  intros ->. unfold interest_fields, flag, has, lacks, TName, TCanBePrefix, TMustBeFresh, TForwardingHint, TNonce, TLifetime, THopLimit, TAppParameters.
  destruct (i_canBePrefix (fi_interest f)), (i_mustBeFresh (fi_interest f)), (fi_hint f), (Z.eqb (fi_lifetime f) 4000), (fi_hopLimit f), (fi_params f);
    cbn [app]; repeat split; intros; cbn [In] in *; intuition congruence.
Qed.

(** * The packet *)
Theorem sent_fields nonce r w : peek_send sha256 nonce r = Some w ->
  exists es n',
    interest_of w es /\ (length w <= 8 * 1100)%nat /\
    NoDup (map fst es) /\ (forall t v, In (t, v) es -> In t [7; 33; 18; 30; 10; 12; 34; 36]%N) /\
    has es 7 (flat_map (fun c => tlv (c_type c) (c_value c)) n') /\
    match pr_params r with
    | None => n' = pr_name r /\ lacks es 36
    | Some p => with_digest (pr_name r) n' (sha256 (tlv 36 p)) /\ has es 36 p
    end /\
    flag es 33 (pr_canBePrefix r) /\ flag es 18 (pr_mustBeFresh r) /\
    (pr_hint r = [] -> lacks es 30) /\ (pr_hint r <> [] -> has es 30 (flat_map encode_name (pr_hint r))) /\
    has es 10 nonce /\
    (pr_lifetime r = 4000%Z -> lacks es 12) /\ (pr_lifetime r <> 4000%Z -> has es 12 (nni (Z.to_N (pr_lifetime r)))) /\
    match pr_hopLimit r with Some h => has es 34 [h] | None => lacks es 34 end.
Proof.
  unfold peek_send. destruct (create_interest sha256 r) as [f|] eqn:C; [|discriminate].
  destruct (Nat.leb_spec (length (interest_wire nonce f)) (8 * 1100)) as [L|]; [|discriminate]. intros [= <-].
  assert (F : fi_hint f = pr_hint r /\ fi_lifetime f = pr_lifetime r /\ fi_hopLimit f = pr_hopLimit r /\ fi_params f = pr_params r /\
              i_canBePrefix (fi_interest f) = pr_canBePrefix r /\ i_mustBeFresh (fi_interest f) = pr_mustBeFresh r /\
              match pr_params r with
              | None => i_name (fi_interest f) = pr_name r
              | Some p => with_digest (pr_name r) (i_name (fi_interest f)) (sha256 (tlv 36 p))
              end).
  { unfold create_interest in C. destruct (Nat.ltb_spec 1 (length (filter is_params_digest (pr_name r)))) as [|D]; [discriminate|].
    destruct (pr_params r) as [p|] eqn:Ep.
    - injection C as <-. cbn. repeat split; auto. now apply put_spec.
    - destruct (Nat.eqb _ 0); [|discriminate]. injection C as <-. cbn. auto 10. }
  destruct F as (F1 & F2 & F3 & F4 & F5 & F6 & F7).
  destruct (fields_spec nonce f _ eq_refl) as (S1 & S2 & S3 & S4 & S5 & S6 & S7 & S8).
  rewrite F1 in *. rewrite F2 in *. rewrite F3 in *. rewrite F4 in *. rewrite F5 in *. rewrite F6 in *.
  exists (interest_fields nonce f), (i_name (fi_interest f)).
  split; [reflexivity|]. split; [exact L|]. split.
  { clear. unfold interest_fields.
    destruct (i_canBePrefix (fi_interest f)), (i_mustBeFresh (fi_interest f)), (fi_hint f), (Z.eqb (fi_lifetime f) 4000), (fi_hopLimit f), (fi_params f);
      cbn; repeat constructor; cbn; intuition discriminate. }
  split.
  { clear. intros t v. unfold interest_fields.
    destruct (i_canBePrefix (fi_interest f)), (i_mustBeFresh (fi_interest f)), (fi_hint f), (Z.eqb (fi_lifetime f) 4000), (fi_hopLimit f), (fi_params f);
      cbn; intuition (match goal with H : (_, _) = (t, v) |- _ => injection H as <- _ end; auto 10). }
  split; [exact S1|]. split.
  { destruct (pr_params r); auto. }
  split; [exact S2|]. split; [exact S3|].
  split; [intros E; rewrite E in S4; exact S4|]. split; [intros E; destruct (pr_hint r); [congruence|exact S4]|].
  split; [exact S5|].
  split; [intros E; rewrite E in S6; exact S6|]. split; [intros E; apply Z.eqb_neq in E; rewrite E in S6; exact S6|].
  exact S7.
Qed.

(** when nothing is sent *)
Theorem not_sent nonce r : peek_send sha256 nonce r = None <->
  (1 < digests (pr_name r))%nat \/ (digests (pr_name r) = 1%nat /\ pr_params r = None) \/
  exists f, create_interest sha256 r = Some f /\ (8 * 1100 < length (interest_wire nonce f))%nat.
Proof.
  unfold peek_send, create_interest. change (length (filter is_params_digest (pr_name r))) with (digests (pr_name r)).
  destruct (Nat.ltb_spec 1 (digests (pr_name r))) as [D|D].
  { split; [intros _; now left|reflexivity]. }
  destruct (pr_params r) as [p|].
  - cbv beta iota zeta. match goal with |- context [interest_wire nonce ?f] => set (f0 := f) end.
    destruct (Nat.leb_spec (length (interest_wire nonce f0)) (8 * 1100)) as [L|L].
    + split; [discriminate|]. intros [H|[[_ H]|(f & [= <-] & H)]]; [lia|discriminate|lia].
    + split; [|reflexivity]. intros _. right. right. eauto.
  - destruct (Nat.eqb_spec (digests (pr_name r)) 0) as [E|E].
    + cbv beta iota zeta. match goal with |- context [interest_wire nonce ?f] => set (f0 := f) end.
      destruct (Nat.leb_spec (length (interest_wire nonce f0)) (8 * 1100)) as [L|L].
      * split; [discriminate|]. intros [H|[[H _]|(f & [= <-] & H)]]; lia.
      * split; [|reflexivity]. intros _. right. right. eauto.
    + split; [|reflexivity]. intros _. right. left. split; [lia|reflexivity].
Qed.

(** * Reading it back *)
Lemma tlv_inj t v t' v' : elem_ok t v -> elem_ok t' v' -> tlv t v = tlv t' v' -> t = t' /\ v = v'.
Proof.
  intros H H' E. pose proof (read_tlv_tlv t v [] H) as R. pose proof (read_tlv_tlv t' v' [] H') as R'.
  rewrite E, R' in R. now injection R as -> ->.
Qed.
Lemma encode_all_inj a b : Forall (fun e => elem_ok (fst e) (snd e)) a -> Forall (fun e => elem_ok (fst e) (snd e)) b ->
  encode_all a = encode_all b -> a = b.
Proof. intros A B E. apply parse_encode in A, B. rewrite E, B in A. now injection A. Qed.
Lemma names_inj a : forall b, Forall name_ok a -> Forall name_ok b -> flat_map encode_name a = flat_map encode_name b -> a = b.
Proof.
  intros b A B E.
  set (g := fun n : name => (TName, flat_map (fun c => tlv (c_type c) (c_value c)) n)).
  assert (X : forall l, flat_map encode_name l = encode_all (map g l)).
  { induction l as [|n l IH]; [reflexivity|]. cbn [flat_map map encode_all]. now rewrite IH. }
  assert (K : forall l, Forall name_ok l -> Forall (fun e => elem_ok (fst e) (snd e)) (map g l)).
  { intros l H. apply Forall_map. eapply Forall_impl; [|exact H]. intros n [_ H2]. split; [cbn; unfold type_ok, TName; lia|exact H2]. }
  rewrite !X in E. apply encode_all_inj in E; [|now apply K|now apply K]. clear X K. revert b B E.
  induction A as [|n a Hn A IH]; intros b B E; destruct b as [|n' b]; try discriminate; [reflexivity|].
  cbn [map] in E. injection E as E1 E2. apply Forall_cons_iff in B. destruct B as [Hn' B]. f_equal; [|now apply IH].
  apply decode_encode_name in Hn, Hn'. unfold encode_name in Hn, Hn'. rewrite E1, Hn' in Hn. now injection Hn.
Qed.
Lemma has_eq es t v v' : has es t v -> has es t v' -> v = v'.
Proof. intros [H1 H2] [H3 _]. symmetry. now apply H2. Qed.
Lemma lacks_has es t v : lacks es t -> has es t v -> False.
Proof. intros H [H1 _]. exact (H v H1). Qed.
Lemma elem_len es t v : In (t, v) es -> (length v <= length (encode_all es))%nat.
Proof.
  induction es as [|[t' v'] es IH]; [intros []|]. cbn [encode_all flat_map fst snd]. rewrite app_length.
  intros [[= -> ->]|H]; [unfold tlv; rewrite !app_length; lia|]. specialize (IH H). unfold encode_all in IH. lia.
Qed.
Lemma short_u64 n : (n <= 8 * 1100)%nat -> u64 (N.of_nat n).
Proof.
  intros H. unfold u64. apply N.le_lt_trans with (N.of_nat (8 * 1100)); [lia|]. apply N.ltb_lt. vm_compute. reflexivity.
Qed.
Lemma es_ok w es : interest_of w es -> (length w <= 8 * 1100)%nat -> (forall t v, In (t, v) es -> In t [7; 33; 18; 30; 10; 12; 34; 36]%N) ->
  Forall (fun e => elem_ok (fst e) (snd e)) es /\ elem_ok 5 (encode_all es).
Proof.
  intros -> L T. assert (L' : (length (encode_all es) <= 8 * 1100)%nat).
  { etransitivity; [|exact L]. unfold tlv. rewrite !app_length. lia. }
  split.
  - apply Forall_forall. intros [t v] H. cbn [fst snd]. split.
    + specialize (T t v H). unfold type_ok. cbn [In] in T. intuition (subst; lia).
    + apply short_u64. etransitivity; [apply (elem_len _ _ _ H)|exact L'].
  - split; [unfold type_ok; lia|]. now apply short_u64.
Qed.
Lemma nni_inj a b : u64 a -> u64 b -> nni a = nni b -> a = b.
Proof. intros A B E. apply nni_ok in A, B. destruct A as [_ A], B as [_ B]. now rewrite <- A, <- B, E. Qed.
Lemma digest_free n n' v v' m : (forall c, In c n -> c_type c <> 2%N) -> (forall c, In c n' -> c_type c <> 2%N) ->
  with_digest n m v -> with_digest n' m v' -> n = n'.
Proof.
  intros F F' [(a & c & b & -> & Hc & _)|[_ ->]]; [exfalso; apply (F c); [apply in_or_app; right; now left|exact Hc]|].
  intros [(a & c & b & -> & Hc & _)|[_ E]]; [exfalso; apply (F' c); [apply in_or_app; right; now left|exact Hc]|].
  now apply app_inj_tail in E as [-> _].
Qed.
Lemma comps_inj n m : Forall comp_ok n -> Forall comp_ok m ->
  flat_map (fun c => tlv (c_type c) (c_value c)) n = flat_map (fun c => tlv (c_type c) (c_value c)) m -> n = m.
Proof.
  intros A B E. set (g := fun c : component => (c_type c, c_value c)).
  assert (X : forall l, flat_map (fun c => tlv (c_type c) (c_value c)) l = encode_all (map g l)).
  { induction l as [|c l IH]; [reflexivity|]. cbn [flat_map map encode_all]. now rewrite IH. }
  rewrite !X in E. apply encode_all_inj in E; [|apply Forall_map; exact A|apply Forall_map; exact B].
  clear -E. revert m E. induction n as [|c n IH]; intros [|c' m] E; try discriminate; [reflexivity|].
  cbn [map] in E. injection E as E1 E2 E3. f_equal; [destruct c, c'; cbn in *; congruence|now apply IH].
Qed.
Hypothesis sha_len : forall x, length (sha256 x) = 32%nat.
Lemma with_digest_ok n m x : Forall comp_ok n -> with_digest n m (sha256 x) -> Forall comp_ok m.
Proof.
  assert (C : comp_ok (Comp 2 (sha256 x))).
  { split; [unfold type_ok; cbn; lia|]. cbn [c_value]. rewrite sha_len. unfold u64. cbn. lia. }
  intros H [(a & c & b & -> & _ & ->)|[_ ->]].
  - apply Forall_app in H. destruct H as [Ha Hb]. apply Forall_cons_iff in Hb. apply Forall_app. split; [exact Ha|]. constructor; [exact C|apply Hb].
  - apply Forall_app. split; [exact H|]. constructor; [exact C|constructor].
Qed.

Theorem unambiguous nonce nonce' r r' w :
  request_ok r -> request_ok r' ->
  (forall c, In c (pr_name r) -> c_type c <> 2%N) -> (forall c, In c (pr_name r') -> c_type c <> 2%N) ->
  peek_send sha256 nonce r = Some w -> peek_send sha256 nonce' r' = Some w -> r = r'.
Proof.
  intros (N1 & H1 & L1) (N2 & H2 & L2) F1 F2 S1 S2.
  apply sent_fields in S1, S2.
  destruct S1 as (es & n & I1 & Le1 & _ & T1 & A1 & B1 & C1 & D1 & E1 & E1' & G1 & K1 & K1' & M1).
  destruct S2 as (es' & n' & I2 & Le2 & _ & T2 & A2 & B2 & C2 & D2 & E2 & E2' & G2 & K2 & K2' & M2).
  destruct (es_ok w es I1 Le1 T1) as [O1 P1]. destruct (es_ok w es' I2 Le2 T2) as [O2 P2].
  assert (es = es') as <-.
  { unfold interest_of in I1, I2. rewrite I1 in I2. apply tlv_inj in I2; [|assumption|assumption]. apply encode_all_inj; tauto. }
  pose proof (has_eq _ _ _ _ A1 A2) as EN.
  assert (EP : pr_params r = pr_params r').
  { clear - B1 B2. destruct (pr_params r), (pr_params r'), B1 as [_ B1], B2 as [_ B2].
    - f_equal. eapply has_eq; eassumption.
    - exfalso. eapply lacks_has; eassumption.
    - exfalso. eapply lacks_has; eassumption.
    - reflexivity. }
  assert (Ename : pr_name r = pr_name r').
  { rewrite <- EP in B2. destruct N1 as [N1 _], N2 as [N2 _]. destruct (pr_params r) as [p|].
    - destruct B1 as [B1 _], B2 as [B2 _].
      assert (n = n') as <- by (apply comps_inj; [exact (with_digest_ok _ _ _ N1 B1)|exact (with_digest_ok _ _ _ N2 B2)|exact EN]).
      exact (digest_free _ _ _ _ _ F1 F2 B1 B2).
    - destruct B1 as [-> _], B2 as [-> _]. apply comps_inj; assumption. }
  assert (Ef : forall t a b, flag es t a -> flag es t b -> a = b).
  { intros t [] [] X Y; cbn in X, Y; try reflexivity; exfalso; eauto using lacks_has. }
  assert (Eh : pr_hint r = pr_hint r').
  { destruct (pr_hint r) as [|x l] eqn:Q1, (pr_hint r') as [|y l'] eqn:Q2; [reflexivity| | |].
    - exfalso. eapply lacks_has; [apply E1; reflexivity|apply E2'; discriminate].
    - exfalso. eapply lacks_has; [apply E2; reflexivity|apply E1'; discriminate].
    - apply names_inj; [assumption|assumption|]. eapply has_eq; [apply E1'; discriminate|apply E2'; discriminate]. }
  assert (El : pr_lifetime r = pr_lifetime r').
  { destruct (Z.eq_dec (pr_lifetime r) 4000) as [Q1|Q1], (Z.eq_dec (pr_lifetime r') 4000) as [Q2|Q2]; [congruence| | |].
    - exfalso. eapply lacks_has; eauto.
    - exfalso. eapply lacks_has; eauto.
    - assert (X : nni (Z.to_N (pr_lifetime r)) = nni (Z.to_N (pr_lifetime r'))) by (eapply has_eq; eauto).
      apply nni_inj in X; unfold u64; lia. }
  assert (Eo : pr_hopLimit r = pr_hopLimit r').
  { destruct (pr_hopLimit r), (pr_hopLimit r'); [pose proof (has_eq _ _ _ _ M1 M2); congruence| | |reflexivity]; exfalso; eauto using lacks_has. }
  destruct r as [a1 a2 a3 a4 a5 a6 a7], r' as [b1 b2 b3 b4 b5 b6 b7]. cbn [pr_name pr_canBePrefix pr_mustBeFresh pr_hint pr_lifetime pr_hopLimit pr_params] in *. f_equal; eauto.
Qed.
End Wire.

(** * Nacks and timeouts of ndnpeek in the network *)
Section Failure.
Variable digest : packet -> component.
Variable sign : packet -> list N * list N.
Variable i : interest.
Variable po : peek_opts.
Variable o : poke_opts.
Variable input : list N.
Notation run := (pp_run digest sign i po o input).
Notation step := (pp_step digest sign i po o input).
Notation silent := (silent po).
Lemma silent_run es : Forall silent es -> np_peek (run es) = peek_start po.
Proof.
  intros H. unfold pp_run. set (y0 := PpSystem _ _). assert (E : np_peek y0 = peek_start po) by reflexivity. revert E. generalize y0.
  induction H as [|e es He H IH]; intros y E; [exact E|]. cbn [fold_left]. apply IH.
  destruct e; cbn in He; try contradiction; cbn [pp_step]; unfold poke_gets, to_poke, to_peek; try (destruct (is_prefix_of _ _)); cbn [np_peek]; auto.
  rewrite E. cbn [peek_step]. unfold peek_start. cbn [pk_timer]. now rewrite He.
Qed.
Lemma ended_peek y es : peek_ended (np_peek y) = true -> np_peek (fold_left step es y) = np_peek y.
Proof.
  revert y. induction es as [|e es IH]; intros y H; [reflexivity|]. cbn [fold_left].
  assert (K : np_peek (step y e) = np_peek y).
  { unfold peek_ended in H. apply andb_prop in H. destruct H as [H1 H2]. apply negb_true_iff in H1, H2.
    destruct e; cbn [pp_step]; unfold poke_gets, to_poke, to_peek; try (destruct (is_prefix_of _ _)); cbn [np_peek peek_step]; auto; rewrite ?H1, ?H2; auto.
    destruct (pp_sent (np_poke y)); [reflexivity|]. destruct (matches_data _ _ _); [|reflexivity]. cbn [np_peek peek_step]. reflexivity. }
  rewrite IH; [exact K|]. now rewrite K.
Qed.
Theorem nack_or_timeout es es' e t out : Forall silent es ->
  (exists h, e = NpNack h /\ t = 4%Z /\ out = [if pk_payloadOnly po then reason_text (nack_code h) ++ [newline] else h]) \/
  ((e = NpExpired \/ e = NpPeekTimer /\ pk_timeout po = true) /\ t = 3%Z /\ out = []) ->
  let y := run (es ++ e :: es') in
  peek_status (pk_result (np_peek y)) = t /\ pk_out (np_peek y) = out /\ peek_ended (np_peek y) = true.
Proof.
  intros H C. cbv zeta. unfold pp_run. rewrite fold_left_app. cbn [fold_left].
  pose proof (silent_run es H) as S. unfold pp_run in S. set (y := fold_left step es _) in *.
  assert (K : peek_status (pk_result (np_peek (step y e))) = t /\ pk_out (np_peek (step y e)) = out /\ peek_ended (np_peek (step y e)) = true).
  { destruct C as [(h & -> & -> & ->)|[[->|[-> T]] [-> ->]]]; cbn [pp_step]; unfold to_peek; cbn [np_peek]; rewrite S; cbn [peek_step peek_start pk_pending pk_timer];
      rewrite ?T; repeat split. }
  rewrite ended_peek by apply K. exact K.
Qed.
End Failure.
