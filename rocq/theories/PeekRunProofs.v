From Verif Require Import Base TlvModel TlvProofs PingModel PeekModel PeekPokeModel PeekWireModel DumpModel DissectSpec DissectProofs PeekRunModel PeekRunSpec.
From Coq Require Import String List Lia ZArith.
Import ListNotations.
Local Open Scope Z_scope.
Local Open Scope list_scope.

Lemma unlines1 l : unlines [l] = l ++ nl.
Proof. unfold unlines, nl. cbn [flat_map]. apply app_nil_r. Qed.
Lemma unlines2 k l : unlines [k; l] = k ++ nl ++ l ++ nl.
Proof. change [k; l] with ([k] ++ [l]). rewrite unlines_app, !unlines1. now rewrite <- app_assoc. Qed.
Lemma say_verbose v ls : say v (unlines ls) = if_verbose v ls.
Proof. reflexivity. Qed.
Lemma say_app v a b : say v (a ++ b) = say v a ++ say v b.
Proof. now destruct v. Qed.
Lemma say_nil v : say v [] = [].
Proof. now destruct v. Qed.

Local Opaque str unlines to_string.
Section Peek.
Variable sha256 : list N -> list N.
Variable nonce : list N.
Variable interest_text : full_interest -> text.
Variable wire_name : list N -> text.
Variable usage version : text.
Variable base64 : text -> text + list N.
Variable open_file : text -> text + (text + list N).
Variable face_error : option text.
Variable create_error send_error : text.

Lemma elapsed_ms t0 t ms : elapsed t0 t ms -> ms_since t0 t = to_string ms.
Proof.
  intros [A B]. unfold ms_since. f_equal. replace ((t - t0) / 1000000) with (Z.of_N ms); [apply N2Z.id|].
  apply Z.div_unique with (t - t0 - Z.of_N ms * 1000000); lia.
Qed.
Lemma elapsed_exists t0 t : t0 <= t -> exists ms, elapsed t0 t ms.
Proof.
  intros H. exists (Z.to_N ((t - t0) / 1000000)). unfold elapsed. rewrite Z2N.id by (apply Z.div_pos; lia).
  pose proof (Z.mul_div_le (t - t0) 1000000 ltac:(lia)). pose proof (Z.mul_succ_div_gt (t - t0) 1000000 ltac:(lia)). lia.
Qed.

Notation step := (kr_step wire_name).
Lemma kr_done o v t0 es r : kr_failed r <> None \/ peek_ended (kr_peek r) = true -> fold_left (step o v t0) es r = r.
Proof.
  intros H. induction es as [|e es IH]; [reflexivity|]. cbn [fold_left]. rewrite <- IH at 2. f_equal.
  unfold kr_step. destruct (kr_failed r); [reflexivity|]. destruct H as [H|H]; [congruence|]. now rewrite H.
Qed.

Definition has_timeout (a : peek_args) : bool := match ka_timeout a with Some _ => true | None => false end.
Notation popts a := (PeekOpts (ka_payload a) (has_timeout a)).

Lemma receives_run a t0 es out err st : peek_receives wire_name a t0 es out err st -> forall e0,
  kr_result (fold_left (step (popts a) (ka_verbose a) t0) es (PeekRunning (peek_start (popts a)) e0 None)) = RunResult out (e0 ++ err) st.
Proof.
  induction 1 as [|t w es ms E|t h es ms E|t es|t w es E|t es out err st E _ IH|t what es]; intros e0.
  - cbn. now rewrite app_nil_r.
  - cbn [fold_left]. rewrite kr_done by (right; reflexivity). cbn. unfold if_verbose, say. rewrite app_nil_r, unlines2. unfold rtt_line. rewrite (elapsed_ms _ _ _ E).
    rewrite <- !app_assoc. reflexivity.
  - cbn [fold_left]. rewrite kr_done by (right; reflexivity). cbn. unfold if_verbose, say. rewrite app_nil_r, unlines2. unfold rtt_line. rewrite (elapsed_ms _ _ _ E).
    rewrite <- !app_assoc. f_equal. now rewrite unlines1.
  - cbn [fold_left]. rewrite kr_done by (right; reflexivity). cbn. unfold if_verbose, say. now rewrite unlines1.
  - cbn [fold_left]. unfold peek_start, has_timeout. rewrite E. rewrite kr_done by (right; reflexivity). cbn. unfold if_verbose, say. now rewrite unlines1.
  - assert (HT : has_timeout a = false) by (unfold has_timeout; now rewrite E). rewrite HT in *. cbn [fold_left].
    
    assert (X : forall v, step (PeekOpts (ka_payload a) false) v t0 (PeekRunning (peek_start (PeekOpts (ka_payload a) false)) e0 None) (t, KEvent PeTimer) =
                          PeekRunning (peek_start (PeekOpts (ka_payload a) false)) e0 None)
      by (intros []; cbn; now rewrite app_nil_r).
    rewrite X. apply IH.
  - cbn [fold_left]. rewrite kr_done by (left; discriminate). cbn. rewrite unlines1, <- !app_assoc. reflexivity.
Qed.
Lemma receives_total a t0 es : Forall (fun e => t0 <= fst e) es -> exists out err st, peek_receives wire_name a t0 es out err st.
Proof.
  induction 1 as [|[t e] es H _ (out & err & st & IH)]; [do 3 eexists; constructor|]. cbn in H.
  destruct (elapsed_exists t0 t H) as [ms E]. destruct e as [[w|h| |]|what]; try (do 3 eexists; econstructor; eassumption).
  destruct (ka_timeout a) eqn:T; [do 3 eexists; eapply Kr_timeout; eassumption|]. do 3 eexists. eapply Kr_no_timer; eassumption.
Qed.

Notation prog := (peek_program sha256 nonce interest_text wire_name usage version base64 open_file face_error create_error send_error).
Notation go := (peek_go sha256 nonce interest_text wire_name face_error create_error send_error).
Notation behaves := (peek_behaves sha256 nonce interest_text wire_name usage version base64 open_file face_error create_error send_error).

Lemma asks_prog a r t0 es : ka_help a = false -> ka_version a = false -> peek_asks base64 open_file a r -> prog (inr a) t0 es = go a r t0 es.
Proof.
  intros H V A. destruct A as [n p h N T L P PP]. unfold peek_program. rewrite H, V, N.
  replace (match ka_timeout a with Some t => Z.ltb t 0 | None => false end) with false
    by (destruct (ka_timeout a) as [t|]; [specialize (T t eq_refl); symmetry; lia|reflexivity]).
  replace (Z.ltb (ka_lifetime a) 0) with false by lia.
  replace (match ka_hopLimit a with Some h => Z.ltb h 0 || Z.ltb 255 h | None => false end)%bool with false
    by (destruct (ka_hopLimit a), h; try contradiction; lia).
  assert (EH : option_map (fun h0 : Z => Z.to_N (h0 mod 256)) (ka_hopLimit a) = h).
  { destruct (ka_hopLimit a) as [z|], h as [k|]; try contradiction; [|reflexivity]. cbn. destruct P as [P <-]. rewrite Z.mod_small by lia. now rewrite N2Z.id. }
  rewrite EH. destruct PP as [E1 E2|t p E1 E2 B|f p E1 E2 B]; rewrite E1, E2; try rewrite B; reflexivity.
Qed.
Lemma complaint_prog a m t0 es : ka_help a = false -> ka_version a = false -> peek_complaint usage base64 open_file a m ->
  prog (inr a) t0 es = RunResult [] (str "ERROR: " ++ m) (Some 2).
Proof.
  intros H V C. unfold peek_program. rewrite H, V.
  assert (TT : (forall t, ka_timeout a = Some t -> 0 <= t) -> match ka_timeout a with Some t => Z.ltb t 0 | None => false end = false)
    by (intros T; destruct (ka_timeout a) as [t|]; [specialize (T t eq_refl); lia|reflexivity]).
  destruct C as [N|t T L N|L N T|h Ht R N T L|m N T L HL C].
  - rewrite N. rewrite unlines2. cbn [app]. now rewrite <- app_assoc.
  - destruct (ka_name a); [|congruence]. rewrite T. replace (t <? 0) with true by lia. now rewrite unlines1.
  - destruct (ka_name a); [|congruence]. rewrite (TT T). replace (ka_lifetime a <? 0) with true by lia. now rewrite unlines1.
  - destruct (ka_name a); [|congruence]. rewrite (TT T), Ht. replace (ka_lifetime a <? 0) with false by lia.
    replace ((h <? 0) || (255 <? h))%bool with true by lia. now rewrite unlines1.
  - destruct (ka_name a) as [n|]; [|congruence]. rewrite (TT T). replace (ka_lifetime a <? 0) with false by lia.
    replace (match ka_hopLimit a with Some h => Z.ltb h 0 || Z.ltb 255 h | None => false end)%bool with false
      by (destruct (ka_hopLimit a) as [h|]; [specialize (HL h eq_refl); lia|reflexivity]).
    rewrite unlines1. destruct C as [t f E1 E2|t e E1 E2 B|f e E1 E2 B|f e E1 E2 B]; rewrite E1, E2; try rewrite B; rewrite <- ?app_assoc; reflexivity.
Qed.

Lemma sent_digests r f : create_interest sha256 r = Some f -> Nat.ltb 1 (List.length (filter is_params_digest (pr_name r))) = false.
Proof. unfold create_interest. now destruct (Nat.ltb 1 (List.length (filter is_params_digest (pr_name r)))). Qed.

Lemma peek_behaves_prog t0 es cmd r : behaves t0 es cmd r -> prog cmd t0 es = r.
Proof.
  destruct 1 as [e|a H|a H V|a m H V C|a r what H V A F|a r H V A F D|a r f H V A F D S C|a r f pk out err st H V A F C S R].
  - cbn. now rewrite unlines1, <- app_assoc.
  - cbn. now rewrite H.
  - cbn. now rewrite H, V.
  - now apply complaint_prog.
  - rewrite (asks_prog a r) by assumption. unfold peek_go. rewrite F. now rewrite unlines1, <- app_assoc.
  - rewrite (asks_prog a r) by assumption. unfold peek_go. rewrite F. replace (Nat.ltb 1 _) with true by (symmetry; apply Nat.ltb_lt; lia).
    now rewrite unlines1, <- app_assoc.
  - rewrite (asks_prog a r) by assumption. unfold peek_go. rewrite F. replace (Nat.ltb 1 _) with false by (symmetry; apply Nat.ltb_ge; lia).
    rewrite S. destruct C as [C|[C ->]]; rewrite C; rewrite !unlines1, <- !app_assoc; unfold if_verbose, say; rewrite unlines1, <- app_assoc; reflexivity.
  - rewrite (asks_prog a r) by assumption. unfold peek_go. rewrite F, (sent_digests r f C), S, C.
    unfold say at 1. fold (has_timeout a). rewrite (receives_run _ _ _ _ _ _ R). unfold if_verbose. rewrite unlines1, <- app_assoc. reflexivity.
Qed.

Lemma params_total a : (exists p, peek_params base64 open_file a p) \/ (exists m, params_complaint base64 open_file a m).
Proof.
  destruct (ka_params a) as [t|] eqn:P, (ka_paramsFile a) as [f|] eqn:F.
  - right. eexists. eapply Pc_both; eassumption.
  - destruct (base64 t) as [e|p] eqn:B; [right; eexists; eapply Pc_base64; eassumption|left; eexists; eapply Pp_text; eassumption].
  - destruct (open_file f) as [e|[e|p]] eqn:B.
    + right. eexists. eapply Pc_open; eassumption.
    + right. eexists. eapply Pc_read; eassumption.
    + left. eexists. eapply Pp_file; eassumption.
  - left. eexists. now apply Pp_none.
Qed.
Lemma asks_total a : (exists r, peek_asks base64 open_file a r) \/ (exists m, peek_complaint usage base64 open_file a m).
Proof.
  destruct (ka_name a) as [n|] eqn:N; [|right; eexists; now apply Kc_name].
  assert (NN : ka_name a <> None) by congruence.
  destruct (ka_timeout a) as [t|] eqn:T.
  - destruct (Z.ltb t 0) eqn:L; [right; eexists; eapply Kc_timeout; [exact T|lia|exact NN]|].
    assert (TT : forall t', ka_timeout a = Some t' -> 0 <= t') by (intros t' E; rewrite T in E; injection E as <-; lia).
    clear T. revert TT. generalize dependent t. intros _ _ TT.
    destruct (Z.ltb (ka_lifetime a) 0) eqn:L; [right; eexists; apply Kc_lifetime; [lia|exact NN|exact TT]|].
    destruct (ka_hopLimit a) as [h|] eqn:HL.
    + destruct (Z.ltb h 0 || Z.ltb 255 h)%bool eqn:B; [right; eexists; eapply Kc_hops; [exact HL|lia|exact NN|exact TT|lia]|].
      destruct (params_total a) as [[p P]|[m M]].
      * left. eexists. apply (Ka_ok _ _ a n p (Some (Z.to_N h))); try assumption; [lia|]. rewrite HL. split; [lia|]. apply Z2N.id. lia.
      * right. eexists. eapply Kc_params; try eassumption; [lia|]. intros h' E. rewrite HL in E. injection E as <-. lia.
    + destruct (params_total a) as [[p P]|[m M]].
      * left. eexists. apply (Ka_ok _ _ a n p None); try assumption; [lia|]. now rewrite HL.
      * right. eexists. eapply Kc_params; try eassumption; [lia|]. intros h' E. congruence.
  - assert (TT : forall t', ka_timeout a = Some t' -> 0 <= t') by congruence.
    destruct (Z.ltb (ka_lifetime a) 0) eqn:L; [right; eexists; apply Kc_lifetime; [lia|exact NN|exact TT]|].
    destruct (ka_hopLimit a) as [h|] eqn:HL.
    + destruct (Z.ltb h 0 || Z.ltb 255 h)%bool eqn:B; [right; eexists; eapply Kc_hops; [exact HL|lia|exact NN|exact TT|lia]|].
      destruct (params_total a) as [[p P]|[m M]].
      * left. eexists. apply (Ka_ok _ _ a n p (Some (Z.to_N h))); try assumption; [lia|]. rewrite HL. split; [lia|]. apply Z2N.id. lia.
      * right. eexists. eapply Kc_params; try eassumption; [lia|]. intros h' E. rewrite HL in E. injection E as <-. lia.
    + destruct (params_total a) as [[p P]|[m M]].
      * left. eexists. apply (Ka_ok _ _ a n p None); try assumption; [lia|]. now rewrite HL.
      * right. eexists. eapply Kc_params; try eassumption; [lia|]. intros h' E. congruence.
Qed.
Lemma peek_total t0 es cmd : Forall (fun e => t0 <= fst e) es -> exists r, behaves t0 es cmd r.
Proof.
  intros B. destruct cmd as [e|a]; [eexists; apply Kb_wrong|].
  destruct (ka_help a) eqn:H; [eexists; now apply Kb_help|]. destruct (ka_version a) eqn:V; [eexists; now apply Kb_version|].
  destruct (asks_total a) as [[r A]|[m M]]; [|eexists; eapply Kb_complaint; eassumption].
  destruct face_error as [what|] eqn:F; [eexists; eapply Kb_no_face; eauto|].
  destruct (Nat.ltb 1 (List.length (filter is_params_digest (pr_name r)))) eqn:D.
  { eexists. eapply Kb_no_interest; eauto. apply Nat.ltb_lt in D. exact D. }
  apply Nat.ltb_ge in D.
  destruct (peek_send sha256 nonce r) as [pk|] eqn:S.
  - destruct (create_interest sha256 r) as [f|] eqn:C; [|unfold peek_send in S; rewrite C in S; discriminate].
    destruct (receives_total a t0 es B) as (out & err & st & R). eexists. eapply Kb_sent; eauto.
  - destruct (create_interest sha256 r) as [f|] eqn:C; eexists; eapply Kb_not_sent; eauto.
Qed.
Lemma peek_prog_behaves t0 es cmd r : Forall (fun e => t0 <= fst e) es -> prog cmd t0 es = r -> behaves t0 es cmd r.
Proof. intros B <-. destruct (peek_total t0 es cmd B) as [r R]. now rewrite (peek_behaves_prog _ _ _ _ R). Qed.

(** -v only adds messages *)
Definition quiet_args (a : peek_args) : peek_args :=
  PeekArgs (ka_help a) (ka_version a) (ka_payload a) false (ka_prefix a) (ka_fresh a) (ka_name a) (ka_hints a) (ka_timeout a) (ka_lifetime a)
    (ka_hopLimit a) (ka_params a) (ka_paramsFile a).
Lemma kr_verbose o v t0 es r r' : kr_peek r = kr_peek r' -> kr_failed r = kr_failed r' ->
  kr_peek (fold_left (step o v t0) es r) = kr_peek (fold_left (step o false t0) es r') /\
  kr_failed (fold_left (step o v t0) es r) = kr_failed (fold_left (step o false t0) es r').
Proof.
  revert r r'. induction es as [|e es IH]; intros r r' P F; [auto|]. cbn [fold_left]. apply IH; unfold kr_step; rewrite P, F;
    destruct (kr_failed r') eqn:E; [congruence| |congruence|]; destruct (peek_ended (kr_peek r')); try congruence; destruct (snd e); cbn; congruence.
Qed.
Lemma kr_result_same r r' : kr_peek r = kr_peek r' -> kr_failed r = kr_failed r' ->
  rr_stdout (kr_result r) = rr_stdout (kr_result r') /\ rr_status (kr_result r) = rr_status (kr_result r').
Proof. intros P F. unfold kr_result. rewrite F, P. destruct (kr_failed r'); auto. Qed.
Lemma go_verbose a r t0 es :
  rr_stdout (go a r t0 es) = rr_stdout (go (quiet_args a) r t0 es) /\ rr_status (go a r t0 es) = rr_status (go (quiet_args a) r t0 es).
Proof.
  unfold peek_go. destruct face_error; [auto|]. destruct (Nat.ltb 1 _); [auto|]. destruct (peek_send sha256 nonce r); [|auto].
  cbn [quiet_args ka_payload ka_timeout ka_verbose]. apply kr_result_same; apply kr_verbose; reflexivity.
Qed.
Lemma peek_verbose a t0 es :
  rr_stdout (prog (inr a) t0 es) = rr_stdout (prog (inr (quiet_args a)) t0 es) /\
  rr_status (prog (inr a) t0 es) = rr_status (prog (inr (quiet_args a)) t0 es).
Proof.
  unfold peek_program. cbn [quiet_args ka_help ka_version ka_name ka_timeout ka_lifetime ka_hopLimit ka_params ka_paramsFile ka_prefix ka_fresh ka_hints].
  destruct (ka_help a); [auto|]. destruct (ka_version a); [auto|]. destruct (ka_name a) as [n|]; [|auto].
  destruct (match ka_timeout a with Some t => t <? 0 | None => false end); [auto|]. destruct (ka_lifetime a <? 0); [auto|].
  destruct (match ka_hopLimit a with Some h => (h <? 0) || (255 <? h) | None => false end)%bool; [auto|].
  destruct (ka_params a) as [t|], (ka_paramsFile a) as [f|]; [auto|destruct (base64 t)|destruct (open_file f) as [|[]]|]; auto; apply go_verbose.
Qed.
Lemma peek_silent a t0 es r : Forall (fun e => t0 <= fst e) es -> ka_verbose a = false -> prog (inr a) t0 es = r ->
  rr_stderr r <> [] -> rr_status r = Some 1 \/ rr_status r = Some 2.
Proof.
  intros B V P E. apply peek_prog_behaves in P; [|exact B]. revert V E.
  inversion P as [|a' H|a' H V|a' m H V C|a' r' what H V A F|a' r' H V A F D|a' r' f H V A F D S C|a' r' f pk out err st H V A F C S R];
    subst; cbn; intros VV E; auto; try congruence.
  unfold if_verbose in E. rewrite VV in E. cbn in E. clear -R VV E.
  induction R; unfold if_verbose in *; rewrite ?VV in *; cbn in *; auto; try congruence.
Qed.
End Peek.

(** * ndnpoke *)
Section Poke.
Variable digest : packet -> component.
Variable sign : packet -> list N * list N.
Variable interest_text : interest -> text.
Variable data_text : packet -> text.
Variable usage version : text.
Variable parse_name : text -> text + name.
Variable signing_error : text -> option text.
Variable start_error : option text.
Variable put_error : text.
Variable put_later : bool.

Notation step := (or_step digest sign interest_text data_text put_error put_later).
Notation send := (or_send sign data_text put_error put_later).
Notation puts := (poke_puts sign data_text put_error put_later).
Notation serves := (poke_serves digest sign interest_text data_text put_error put_later).
Notation registers := (poke_registers digest sign interest_text data_text put_error put_later).

Lemma or_done o v input es r : or_failed r <> None \/ poke_ended (or_poke r) = true -> fold_left (step o v input) es r = r.
Proof.
  intros H. induction es as [|e es IH]; [reflexivity|]. cbn [fold_left]. rewrite <- IH at 2. f_equal.
  unfold or_step. destruct (or_failed r); [reflexivity|]. destruct H as [H|H]; [congruence|]. now rewrite H.
Qed.
Definition has_limit (a : poke_args) : bool := match oa_timeout a with Some _ => true | None => false end.
Notation oopts a n := (PokeOpts n (oa_fresh a) (oa_final a) (oa_unsolicited a) (has_limit a)).

Lemma puts_run a d sent err st reg e0 o input es : puts a d sent err st -> (reg = RegNone \/ reg = RegClosed) ->
  or_result (fold_left (step o (oa_verbose a) input) es (send (oa_verbose a) d (Poke reg false PpUnknown false []) e0)) =
  PokeOutcome sent (RunResult [] (e0 ++ err) st).
Proof.
  intros P R. destruct P as [F|F]; unfold or_send, poke_send; rewrite F.
  - rewrite or_done by (right; destruct R; subst reg; reflexivity). unfold or_result. cbn. destruct R; subst reg; reflexivity.
  - rewrite or_done by (left; discriminate). unfold or_result. cbn. rewrite unlines1. unfold say.
    destruct put_later, (oa_verbose a); cbn; rewrite <- ?app_assoc; reflexivity.
Qed.
Lemma puts_total a d : exists sent err st, puts a d sent err st.
Proof. destruct (data_fits sign d) eqn:F; do 3 eexists; [now apply Ou_sent|now apply Ou_long]. Qed.

Lemma serves_run a n input es sent err st : serves a (poke_data (oopts a n) input) es sent err st -> forall e0,
  or_result (fold_left (step (oopts a n) (oa_verbose a) input) es (PokeRunning (Poke RegActive (has_limit a) PpUnknown false []) e0 None)) =
  PokeOutcome sent (RunResult [] (e0 ++ err) st).
Proof.
  remember (poke_data (oopts a n) input) as d eqn:Ed.
  assert (EN : k_name d = n) by (subst d; reflexivity).
  induction 1 as [|i es sent err st X M P|i es sent err st X M _ IH|i es sent err st X _ IH|w es T|es sent err st T _ IH|es sent err st _ IH|reason es sent err st _ IH|what es]; intros e0.
  - cbn. now rewrite app_nil_r.
  - cbn [fold_left].
    replace (step (oopts a n) (oa_verbose a) input (PokeRunning (Poke RegActive (has_limit a) PpUnknown false []) e0 None) (OInterest i))
      with (send (oa_verbose a) d (Poke RegClosed false PpUnknown false []) (e0 ++ if_verbose (oa_verbose a) [str "INTEREST: " ++ interest_text i])).
    + rewrite (puts_run a d sent err st) by auto. now rewrite <- app_assoc.
    + cbn. rewrite EN in X. rewrite X. unfold or_onInterest. rewrite <- Ed, M. cbn. unfold if_verbose, say. now rewrite unlines1, <- app_assoc.
  - cbn [fold_left].
    replace (step (oopts a n) (oa_verbose a) input (PokeRunning (Poke RegActive (has_limit a) PpUnknown false []) e0 None) (OInterest i))
      with (PokeRunning (Poke RegActive (has_limit a) PpUnknown false [])
              (e0 ++ if_verbose (oa_verbose a) [str "INTEREST: " ++ interest_text i; str "Interest cannot be satisfied"]) None).
    + rewrite IH. now rewrite <- app_assoc.
    + cbn. rewrite EN in X. rewrite X. unfold or_onInterest. rewrite <- Ed, M. cbn. unfold if_verbose, say. rewrite unlines2.
      destruct (oa_verbose a); rewrite <- ?app_assoc; cbn; rewrite ?app_nil_r; reflexivity.
  - cbn [fold_left]. rewrite EN in X.
    replace (step (oopts a n) (oa_verbose a) input (PokeRunning (Poke RegActive (has_limit a) PpUnknown false []) e0 None) (OInterest i))
      with (PokeRunning (Poke RegActive (has_limit a) PpUnknown false []) e0 None) by (cbn; now rewrite X).
    now apply IH.
  - cbn [fold_left]. unfold has_limit. rewrite T. rewrite or_done by (right; reflexivity). cbn. unfold if_verbose, say. now rewrite unlines1.
  - cbn [fold_left]. assert (HL : has_limit a = false) by (unfold has_limit; now rewrite T).
    rewrite HL in *.
    replace (step (PokeOpts n (oa_fresh a) (oa_final a) (oa_unsolicited a) false) (oa_verbose a) input (PokeRunning (Poke RegActive false PpUnknown false []) e0 None) OTimer)
      with (PokeRunning (Poke RegActive false PpUnknown false []) e0 None) by reflexivity.
    now apply IH.
  - cbn [fold_left]. now apply IH.
  - cbn [fold_left]. now apply IH.
  - cbn [fold_left]. rewrite or_done by (left; discriminate). cbn. rewrite unlines1, <- app_assoc. reflexivity.
Qed.
Lemma serves_total a d es : exists sent err st, serves a d es sent err st.
Proof.
  induction es as [|e es (sent & err & st & IH)]; [do 3 eexists; constructor|]. destruct e as [|reason|i| |what].
  - do 3 eexists. apply Os_success, IH.
  - do 3 eexists. apply Os_failure, IH.
  - destruct (is_prefix_of (k_name d) (i_name i)) eqn:X; [|do 3 eexists; apply Os_foreign; eassumption].
    destruct (matches_data digest i d) eqn:M; [|do 3 eexists; apply Os_other; eassumption].
    destruct (puts_total a d) as (s' & e' & st' & P). do 3 eexists. apply Os_answer; eassumption.
  - destruct (oa_timeout a) eqn:T; do 3 eexists; [eapply Os_timeout; eassumption|apply Os_no_timer; eassumption].
  - do 3 eexists. apply Os_fails.
Qed.

Lemma registers_run a n input es sent err st : registers a (poke_data (oopts a n) input) es sent err st -> forall e0,
  or_result (fold_left (step (oopts a n) (oa_verbose a) input) es (PokeRunning (Poke RegWaiting false PpUnknown false []) e0 None)) =
  PokeOutcome sent (RunResult [] (e0 ++ err) st).
Proof.
  induction 1 as [|es sent err st S|reason es|i es sent err st _ IH|es sent err st _ IH|what es]; intros e0.
  - cbn. now rewrite app_nil_r.
  - cbn [fold_left].
    replace (step (oopts a n) (oa_verbose a) input (PokeRunning (Poke RegWaiting false PpUnknown false []) e0 None) ORegSuccess)
      with (PokeRunning (Poke RegActive (has_limit a) PpUnknown false []) (e0 ++ if_verbose (oa_verbose a) [str "Prefix registration successful"]) None).
    + rewrite (serves_run _ _ _ _ _ _ _ S). now rewrite <- app_assoc.
    + cbn. unfold if_verbose, say. now rewrite unlines1.
  - cbn [fold_left]. rewrite or_done by (right; reflexivity). cbn. rewrite unlines1, <- !app_assoc. reflexivity.
  - cbn [fold_left]. apply IH.
  - cbn [fold_left]. apply IH.
  - cbn [fold_left]. rewrite or_done by (left; discriminate). cbn. rewrite unlines1, <- app_assoc. reflexivity.
Qed.
Lemma registers_total a d es : exists sent err st, registers a d es sent err st.
Proof.
  induction es as [|e es (sent & err & st & IH)]; [do 3 eexists; constructor|]. destruct e as [|reason|i| |what].
  - destruct (serves_total a d es) as (s' & e' & st' & S). do 3 eexists. apply Or_success, S.
  - do 3 eexists. apply Or_failure.
  - do 3 eexists. apply Or_interest, IH.
  - do 3 eexists. apply Or_timer, IH.
  - do 3 eexists. apply Or_fails.
Qed.

Notation prog := (poke_program digest sign interest_text data_text usage version parse_name signing_error start_error put_error put_later).
Notation go := (poke_go digest sign interest_text data_text start_error put_error put_later).
Notation behaves := (poke_behaves digest sign interest_text data_text usage version parse_name signing_error start_error put_error put_later).

Lemma last_snoc n c : last_comp (n ++ [c]) = Some c.
Proof. unfold last_comp. rewrite rev_app_distr. reflexivity. Qed.
Lemma publishes_prog a input d es : oa_help a = false -> oa_version a = false -> poke_publishes parse_name signing_error a input d ->
  exists n, d = poke_data (oopts a n) input /\ prog (inr a) input es = go a n input es.
Proof.
  intros H V P. destruct P as [t n c N P F S T]. exists (n ++ [c]). split.
  - unfold poke_data. cbn [pp_name pp_final pp_fresh]. now rewrite last_snoc.
  - unfold poke_program. rewrite H, V, N, P, S. replace (Nat.eqb _ 0) with false by (rewrite app_length; cbn; symmetry; apply Nat.eqb_neq; lia).
    replace (oa_fresh a <? 0) with false by lia. destruct (oa_timeout a) as [w|]; [|reflexivity].
    destruct (T w eq_refl) as [U W]. rewrite U. now replace (w <? 0) with false by lia.
Qed.
Lemma poke_complaint_prog a m input es : oa_help a = false -> oa_version a = false -> poke_complaint usage parse_name signing_error a m ->
  prog (inr a) input es = PokeOutcome [] (RunResult [] (str "ERROR: " ++ m) (Some 2)).
Proof.
  intros H V C. unfold poke_program. rewrite H, V.
  destruct C as [N|t e N P|t N P|t n N P E F|t n e N P E F S|t n w N P E F S T U|t n w N P E F S T U W]; rewrite N; try rewrite P.
  - rewrite unlines2. cbn [app]. now rewrite <- app_assoc.
  - now rewrite unlines1, <- app_assoc.
  - now rewrite unlines1.
  - destruct n; [congruence|]. cbn [List.length Nat.eqb]. replace (oa_fresh a <? 0) with true by lia. now rewrite unlines1.
  - destruct n; [congruence|]. cbn [List.length Nat.eqb]. replace (oa_fresh a <? 0) with false by lia. now rewrite S, unlines1.
  - destruct n; [congruence|]. cbn [List.length Nat.eqb]. replace (oa_fresh a <? 0) with false by lia. now rewrite S, T, U, unlines1.
  - destruct n; [congruence|]. cbn [List.length Nat.eqb]. replace (oa_fresh a <? 0) with false by lia. rewrite S, T, U.
    replace (w <? 0) with true by lia. now rewrite unlines1.
Qed.

Lemma poke_behaves_prog input es cmd r : behaves input es cmd r -> prog cmd input es = r.
Proof.
  destruct 1 as [e|a H|a H V|a m H V C|a d what H V P S|a d sent err st H V P S U R|a d sent err st H V P S U R].
  - cbn. now rewrite unlines1, <- app_assoc.
  - cbn. now rewrite H.
  - cbn. now rewrite H, V.
  - now apply poke_complaint_prog.
  - destruct (publishes_prog a input d es H V P) as (n & _ & ->). unfold poke_go. rewrite S. now rewrite unlines1, <- app_assoc.
  - destruct (publishes_prog a input d es H V P) as (n & E & ->). unfold poke_go. rewrite S, U. fold (has_limit a).
    rewrite U in E. rewrite <- E. rewrite (puts_run a d sent err st RegNone []) by auto. reflexivity.
  - destruct (publishes_prog a input d es H V P) as (n & -> & ->). unfold poke_go. rewrite S, U. fold (has_limit a).
    pose proof (registers_run _ _ _ _ _ _ _ R []) as X. rewrite U in X. exact X.
Qed.

Lemma name_cases (n : name) : n = [] \/ exists m c, n = m ++ [c].
Proof. destruct (rev n) as [|c r] eqn:E; [left; now rewrite <- (rev_involutive n), E|]. right. exists (rev r), c. rewrite <- (rev_involutive n), E. reflexivity. Qed.
Lemma publishes_total a input : (exists d, poke_publishes parse_name signing_error a input d) \/ (exists m, poke_complaint usage parse_name signing_error a m).
Proof.
  destruct (oa_name a) as [t|] eqn:N; [|right; eexists; now apply Oc_missing].
  destruct (parse_name t) as [e|n] eqn:P; [right; eexists; eapply Oc_invalid; eassumption|].
  destruct (name_cases n) as [->|(m & c & E)]; [right; eexists; eapply Oc_empty; eassumption|].
  assert (NE : n <> []) by (rewrite E; now destruct m).
  destruct (oa_fresh a <? 0) eqn:F; [right; eexists; eapply Oc_fresh; try eassumption; lia|].
  destruct (signing_error (oa_signing a)) as [e|] eqn:S; [right; eexists; eapply Oc_signing; try eassumption; lia|].
  destruct (oa_timeout a) as [w|] eqn:T.
  - destruct (oa_unsolicited a) eqn:U; [right; eexists; eapply Oc_conflict; try eassumption; lia|].
    destruct (w <? 0) eqn:W; [right; eexists; eapply Oc_timeout; try eassumption; lia|].
    left. eexists. eapply Op_ok; [eassumption|rewrite <- E; exact P|lia|assumption|]. intros w' E'. rewrite T in E'. injection E' as <-. split; [assumption|lia].
  - left. eexists. eapply Op_ok; [eassumption|rewrite <- E; exact P|lia|assumption|]. congruence.
Qed.
Lemma poke_total input es cmd : exists r, behaves input es cmd r.
Proof.
  destruct cmd as [e|a]; [eexists; apply Ob_wrong|].
  destruct (oa_help a) eqn:H; [eexists; now apply Ob_help|]. destruct (oa_version a) eqn:V; [eexists; now apply Ob_version|].
  destruct (publishes_total a input) as [[d P]|[m M]]; [|eexists; eapply Ob_complaint; eassumption].
  destruct start_error as [what|] eqn:S; [eexists; eapply Ob_no_start; eauto|].
  destruct (oa_unsolicited a) eqn:U.
  - destruct (puts_total a d) as (sent & err & st & R). eexists. eapply Ob_unsolicited; eauto.
  - destruct (registers_total a d es) as (sent & err & st & R). eexists. eapply Ob_serves; eauto.
Qed.
Lemma poke_prog_behaves input es cmd r : prog cmd input es = r -> behaves input es cmd r.
Proof. intros <-. destruct (poke_total input es cmd) as [r R]. now rewrite (poke_behaves_prog _ _ _ _ R). Qed.
End Poke.
