(** The verbose messages of the adaptive pipelines against their history. *)
From Verif Require Import Base BaseFacts PipelineBase PipelineSpec FetcherModel AdaptiveModel Double DumpModel DecimalModel
  CatMsgModel CatLinesSpec.

(** ** composition *)
Lemma with_past_app {A} (f : list pobs -> pobs -> list A) h1 : forall past h2,
  with_past f past (h1 ++ h2) = with_past f past h1 ++ with_past f (rev h1 ++ past) h2.
Proof.
  induction h1 as [|o h1 IH]; intros past h2; cbn [app with_past rev]; [reflexivity|].
  rewrite IH, <- !app_assoc. reflexivity.
Qed.
Lemma woven_app extra a1 b1 a2 b2 : woven extra a1 b1 -> woven extra a2 b2 -> woven extra (a1 ++ a2) (b1 ++ b2).
Proof. induction 1; intros H2; cbn [app]; [exact H2|constructor; auto|constructor; auto]. Qed.
Lemma woven_mono (e1 e2 : N -> Prop) a b : (forall k, e1 k -> e2 k) -> woven e1 a b -> woven e2 a b.
Proof. intros He. induction 1; constructor; auto. Qed.
Lemma used_up_more r l t k : used_up r t k -> used_up r (l ++ t) k.
Proof. intros [H1 H2]. split; [exact H1|]. rewrite count_app. pose proof (count_nonneg (is_resend k) l). lia. Qed.

Lemma tells_nil r tl past : tells r tl past [] [].
Proof. constructor; try reflexivity; destruct tl; try reflexivity. constructor. Qed.
Lemma tells_app r tl past m1 h1 m2 h2 :
  tells r tl past m1 h1 -> tells r tl (rev h1 ++ past) m2 h2 -> tells r tl past (m1 ++ m2) (h1 ++ h2).
Proof.
  intros [A1 A2 A3 A4 A5 A6 A7 A8 A9] [B1 B2 B3 B4 B5 B6 B7 B8 B9]. constructor.
  - unfold requested, first_sends in *. rewrite !flat_map_app. congruence.
  - unfold retransmitted, resends in *. rewrite !flat_map_app. destruct tl; [now rewrite A2, B2|].
    rewrite rev_app_distr, <- app_assoc. apply woven_app; [|exact B2].
    apply (woven_mono (used_up r (rev h1 ++ past))); [|exact A2]. intros k. apply used_up_more.
  - unfold retries_told, later_resends in *. rewrite flat_map_app, with_past_app. destruct tl; [now rewrite A3, B3|congruence].
  - unfold received, deliveries in *. rewrite !flat_map_app, map_app. congruence.
  - unfold marks_told, decreases_by_mark in *. rewrite !flat_map_app. congruence.
  - unfold losses_told, decreases_by_loss in *. rewrite !count_app. lia.
  - unfold nacks_told, nacks in *. rewrite flat_map_app, with_past_app. congruence.
  - unfold timeouts_told, expiries in *. rewrite flat_map_app, with_past_app. destruct tl; [congruence|now rewrite A8, B8].
  - unfold summaries, completions in *. rewrite flat_map_app, app_length, count_app. lia.
Qed.

(** ** observations that no message reports *)
Definition dull (tl : bool) (o : pobs) : bool :=
  match o with
  | OInterest _ _ | ODeliver _ _ | OGotNack _ _ | ODecrMark _ | ODecrLoss _ | ODone => false
  | OGotExpiry _ => negb tl
  | _ => true
  end.
Lemma tells_dull1 r tl past o : dull tl o = true -> tells r tl past [] [o].
Proof.
  intros H. destruct o; cbn in H; try discriminate; constructor; try reflexivity; destruct tl; try discriminate H; try reflexivity;
    try (cbn; constructor).
Qed.
Lemma tells_dull r tl l : Forall (fun o => dull tl o = true) l -> forall past, tells r tl past [] l.
Proof.
  induction 1 as [|o l Ho Hl IH]; intros past; [apply tells_nil|].
  exact (tells_app r tl past [] [o] [] l (tells_dull1 r tl past o Ho) (IH _)).
Qed.

(** ** the adaptive pipelines *)
Section Adaptive.
Context {W R : Type}.
Variable P : policy W R.
Variable C : aconfig.
Variables cwnd ssthresh : W -> f64.
Variable summary : @astate W R -> text.
Notation astate := (@astate W R).
Notation r := (c_maxRetries C).

Definition T (s : astate) (m : list cmsg) (s' : astate) : Prop :=
  exists l, a_tr s' = rev l ++ a_tr s /\ tells r false (a_tr s) m l.
Lemma T_trans a m1 b m2 c : T a m1 b -> T b m2 c -> T a (m1 ++ m2) c.
Proof.
  intros (l1 & E1 & H1) (l2 & E2 & H2). exists (l1 ++ l2). rewrite rev_app_distr, <- app_assoc. split; [congruence|].
  apply tells_app; [exact H1|]. now rewrite <- E1.
Qed.

(** what the program relies on *)
Record K (s : astate) : Prop := {
  K_stop : isStopping s = true -> a_segs s = [];
  K_segs : forall k, In k (keys (a_segs s)) -> (k < b_next (a_b s))%N;
  K_retx : forall k, match kget k (a_retxCount s) with
                     | None => count (is_resend k) (a_tr s) = 0
                     | Some m => 1 <= m /\ (k < b_next (a_b s))%N /\
                                 (In k (keys (a_segs s)) -> count (is_resend k) (a_tr s) = m)
                     end
}.

(** steps that say nothing *)
Definition pass (s s' : astate) : Prop :=
  (exists l, a_tr s' = rev l ++ a_tr s /\ Forall (fun o => dull false o = true) l) /\
  a_retxCount s' = a_retxCount s /\ b_next (a_b s') = b_next (a_b s) /\ incl (keys (a_segs s')) (keys (a_segs s)) /\
  (isStopping s' = true -> isStopping s = true \/ a_segs s' = []).

Lemma pass_refl s : pass s s.
Proof. split; [exists []; split; [reflexivity|constructor]|]. repeat split; auto. apply incl_refl. Qed.
Lemma pass_trans a b c : pass a b -> pass b c -> pass a c.
Proof.
  intros ((l1 & E1 & F1) & A1 & A2 & A3 & A4) ((l2 & E2 & F2) & B1 & B2 & B3 & B4). split.
  - exists (l1 ++ l2). rewrite rev_app_distr, <- app_assoc. split; [congruence|]. apply Forall_app. auto.
  - split; [congruence|]. split; [congruence|]. split; [eapply incl_tran; eauto|]. intros H. destruct (B4 H) as [H1|H1]; [|auto].
    destruct (A4 H1) as [H2|H2]; [auto|]. right. rewrite H2 in B3. destruct (a_segs c) as [|[k i] t]; [reflexivity|].
    exfalso. exact (B3 k (or_introl eq_refl)).
Qed.
Lemma pass_T s s' : pass s s' -> T s [] s'.
Proof. intros ((l & E & F) & _). exists l. split; [exact E|]. now apply tells_dull. Qed.
Lemma dull_resend l k : Forall (fun o => dull false o = true) l -> count (is_resend k) l = 0.
Proof.
  intros F. apply count_zero. intros o Ho. rewrite Forall_forall in F. specialize (F o Ho). destruct o; try reflexivity. discriminate.
Qed.
Lemma pass_K s s' : pass s s' -> K s -> K s'.
Proof.
  intros ((l & E & F) & A1 & A2 & A3 & A4) [K1 K2 K3]. constructor.
  - intros H. destruct (A4 H) as [H1|H1]; [|exact H1]. rewrite (K1 H1) in A3.
    destruct (a_segs s') as [|[k i] t]; [reflexivity|]. exfalso. exact (A3 k (or_introl eq_refl)).
  - intros k Hk. rewrite A2. auto.
  - intros k. rewrite A1, A2, E, count_app, count_rev, (dull_resend l k F), Z.add_0_l. specialize (K3 k).
    destruct (kget k (a_retxCount s)); [|exact K3]. destruct K3 as (H1 & H2 & H3). auto.
Qed.

Lemma pass_emit o s : dull false o = true -> pass s (emit o s).
Proof. intros H. split; [exists [o]; split; [reflexivity|repeat constructor; exact H]|]. repeat split; auto. apply incl_refl. Qed.
(** a step that changes nothing of this *)
Lemma pass_same s s' : a_tr s' = a_tr s -> a_retxCount s' = a_retxCount s -> b_next (a_b s') = b_next (a_b s) ->
  a_segs s' = a_segs s -> isStopping s' = isStopping s -> pass s s'.
Proof. intros E1 E2 E3 E4 E5. split; [exists []; split; [exact E1|constructor]|]. rewrite E4, E5. repeat split; auto. apply incl_refl. Qed.

Lemma pass_cancel s : pass s (cancel s).
Proof.
  unfold cancel. destruct (isStopping s) eqn:E; [apply pass_refl|].
  split; [exists []; split; [reflexivity|constructor]|]. repeat split; auto. intros k [].
Qed.
Lemma pass_onFailure rs s : pass s (onFailure rs s).
Proof.
  unfold onFailure. destruct (isStopping s); [apply pass_refl|]. eapply pass_trans; [apply pass_cancel|]. now apply pass_emit.
Qed.
Lemma pass_cancelGreater n s : pass s (cancelGreater n s).
Proof.
  unfold cancelGreater. split.
  - exists (rev (map (fun e => OAbandon (fst e)) (filter (fun e => N.ltb n (fst e)) (a_segs s)))). rewrite rev_involutive.
    split; [reflexivity|]. apply Forall_rev. apply Forall_forall. intros o Ho. apply in_map_iff in Ho. destruct Ho as (e & <- & _). reflexivity.
  - repeat split; auto. cbn [a_segs set_nInFlight set_segs]. intros k Hk. unfold keys in *. apply in_map_iff in Hk.
    destruct Hk as (e & <- & He). apply filter_In in He. apply in_map. tauto.
Qed.
Lemma pass_del seg s : pass s (set_segs (kdel seg (a_segs s)) s).
Proof.
  split; [exists []; split; [reflexivity|constructor]|]. repeat split; auto. cbn [a_segs set_segs].
  rewrite keys_kdel. intros k Hk. apply filter_In in Hk. tauto.
Qed.
Lemma pass_handleFail seg rs s : pass s (handleFail seg rs s).
Proof.
  unfold handleFail. destruct (isStopping s) eqn:E; [apply pass_refl|].
  destruct (b_hasFbi (a_b s) && N.leb seg (b_last (a_b s))); [apply pass_onFailure|].
  destruct (negb (b_hasFbi (a_b s))); [|apply pass_refl].
  set (s1 := emit (OAbandon seg) s). set (s2 := set_segs (kdel seg (a_segs s)) s1).
  change (set_segs (kdel seg (a_segs s)) (emit (OAbandon seg) s)) with s2.
  assert (P1 : pass s (set_nInFlight (a_nInFlight s2 - 1) s2)).
  { eapply pass_trans; [apply (pass_emit (OAbandon seg)); reflexivity|]. fold s1.
    eapply pass_trans; [apply (pass_del seg)|]. apply pass_same; reflexivity. }
  cbv zeta. destruct (a_segs (set_nInFlight (a_nInFlight s2 - 1) s2)).
  - eapply pass_trans; [exact P1|apply pass_onFailure].
  - eapply pass_trans; [exact P1|]. eapply pass_trans; [apply (pass_cancelGreater seg)|]. apply pass_same; reflexivity.
Qed.
Lemma pass_dropSkipped q : forall s, pass s (dropSkipped q s).
Proof.
  induction q as [|k q IH]; intros s; cbn [dropSkipped]; [apply pass_same; reflexivity|].
  destruct (kmem k (a_segs s)); [apply pass_same; reflexivity|].
  eapply pass_trans; [|apply IH]. eapply pass_trans; [|now apply pass_emit]. apply pass_same; reflexivity.
Qed.
Lemma dropSkipped_head q : forall (s : astate) seg q', a_retxq (dropSkipped q s) = seg :: q' -> In seg (keys (a_segs (dropSkipped q s))).
Proof.
  induction q as [|k q IH]; intros s seg q'; cbn [dropSkipped]; [discriminate|].
  destruct (kmem k (a_segs s)) eqn:E; [|apply IH]. intros [= <- <-]. cbn [a_segs set_retxq].
  apply kget_some_keys. unfold kmem in E. destruct (kget k (a_segs s)); [eauto|discriminate].
Qed.

Lemma T_express (seg : N) (retx : bool) s :
  T s ((if retx then MRetransmit seg else MRequest seg) ::
       (if retx then (if 0 <? count (is_resend seg) (a_tr s) then [MRetries seg (count (is_resend seg) (a_tr s) + 1)] else []) else []))
    (express P seg retx s).
Proof.
  exists [OInterest seg retx]. split; [destruct retx; reflexivity|].
  destruct retx; [destruct (0 <? count (is_resend seg) (a_tr s)) eqn:E|]; constructor; cbn; try rewrite E; try reflexivity; repeat constructor.
Qed.
Lemma express_fields seg retx s :
  a_tr (express P seg retx s) = OInterest seg retx :: a_tr s /\
  keys (a_segs (express P seg retx s)) = keys (kset seg (SegInfo true (a_now s) (p_rto P (a_rtt s)) (if retx then Retransmitted else FirstTimeSent)) (a_segs s)) /\
  a_retxCount (express P seg retx s) = a_retxCount s /\ a_b (express P seg retx s) = a_b s.
Proof. destruct retx; repeat split. Qed.
Lemma in_kset {A} k seg (i : A) (m : list (N * A)) : In k (keys (kset seg i m)) -> k = seg \/ In k (keys m).
Proof.
  intros H. apply kget_some_keys in H. destruct H as (a & H). rewrite kget_kset in H.
  destruct (N.eqb_spec k seg); [now left|]. right. apply kget_some_keys. eauto.
Qed.
Lemma K_express_first seg s : K s -> isStopping s = false -> (seg < b_next (a_b s))%N -> kget seg (a_retxCount s) = None ->
  K (express P seg false s).
Proof.
  intros [K1 K2 K3] Hs Hb Hn. destruct (express_fields seg false s) as (E1 & E2 & E3 & E4). constructor.
  - unfold isStopping. rewrite E4. intros H. unfold isStopping in Hs. congruence.
  - intros k Hk. rewrite E2 in Hk. rewrite E4. apply in_kset in Hk. destruct Hk as [->|Hk]; auto.
  - intros k. rewrite E3, E4, E1, count_cons. cbn [is_resend]. specialize (K3 k).
    destruct (kget k (a_retxCount s)) eqn:Ek; [|lia]. destruct K3 as (H1 & H2 & H3). split; [exact H1|]. split; [exact H2|].
    rewrite E2. intros Hk. apply in_kset in Hk. destruct Hk as [->|Hk]; [congruence|]. rewrite (H3 Hk). lia.
Qed.
Lemma K_express_again seg s n : K s -> isStopping s = false -> In seg (keys (a_segs s)) ->
  n = count (is_resend seg) (a_tr s) + 1 -> K (express P seg true (set_retxCount (kset seg n (a_retxCount s)) s)).
Proof.
  intros [K1 K2 K3] Hs Hk Hn. set (s1 := set_retxCount (kset seg n (a_retxCount s)) s).
  destruct (express_fields seg true s1) as (E1 & E2 & E3 & E4). constructor.
  - unfold isStopping. rewrite E4. intros H. unfold isStopping in Hs. cbn [a_b s1 set_retxCount] in H. congruence.
  - intros k Hk'. rewrite E2 in Hk'. rewrite E4. cbn [s1 a_b a_segs set_retxCount] in *. apply in_kset in Hk'. destruct Hk' as [->|Hk']; auto.
  - intros k. rewrite E3, E4, E1, count_cons, E2. cbn [is_resend s1 a_retxCount set_retxCount a_b a_tr a_segs]. rewrite kget_kset. specialize (K3 k).
    rewrite (N.eqb_sym seg k). destruct (N.eqb_spec k seg) as [->|Hne].
    + pose proof (count_nonneg (is_resend seg) (a_tr s)). split; [lia|]. split; [auto|]. intros _. lia.
    + destruct (kget k (a_retxCount s)); [|lia]. destruct K3 as (H1 & H2 & H3). split; [exact H1|]. split; [exact H2|].
      intros H. apply in_kset in H. destruct H as [H|H]; [congruence|]. rewrite (H3 H). lia.
Qed.

Lemma TK_sendInterest (seg : N) (retx : bool) (s : astate) : K s -> (seg < b_next (a_b s))%N ->
  (if retx then In seg (keys (a_segs s)) else kget seg (a_retxCount s) = None) ->
  T s (ma_sendInterest C seg retx s) (sendInterest P C seg retx s) /\ K (sendInterest P C seg retx s).
Proof.
  intros HK Hb Hr. unfold ma_sendInterest, sendInterest.
  destruct (isStopping s) eqn:Es; [split; [apply pass_T, pass_refl|exact HK]|].
  destruct (b_hasFbi (a_b s) && N.ltb (b_last (a_b s)) seg) eqn:Ef; [split; [apply pass_T, pass_refl|exact HK]|].
  destruct (negb retx && a_hasFailure s); [split; [apply pass_T, pass_refl|exact HK]|].
  destruct retx.
  - pose proof (K_retx s HK seg) as Hk. destruct (kget seg (a_retxCount s)) as [n|] eqn:En.
    + destruct Hk as (H1 & H2 & H3). specialize (H3 Hr).
      destruct (negb (r =? MAX_RETRIES_INFINITE) && (r <? n + 1)) eqn:El.
      * set (s1 := set_retxCount (kset seg (n + 1) (a_retxCount s)) s). split.
        -- pose proof (pass_handleFail seg (RMaxRetries seg) s1) as Hp. apply pass_T in Hp. destruct Hp as (l & El1 & Ht).
           exists l. split; [exact El1|]. change (a_tr s1) with (a_tr s) in *.
           refine (tells_app r false (a_tr s) [MRetransmit seg] [] [] l _ Ht).
           apply andb_true_iff in El. destruct El as [El2 El3]. apply negb_true_iff, Z.eqb_neq in El2. apply Z.ltb_lt in El3.
           constructor; try reflexivity. cbn. constructor; [|constructor]. split; [exact El2|]. rewrite H3. lia.
        -- destruct (pass_handleFail seg (RMaxRetries seg) s1) as ((l & E & F) & A1 & A2 & A3 & A4).
           assert (Hgone : ~ In seg (keys (a_segs (handleFail seg (RMaxRetries seg) s1)))).
           { unfold handleFail. change (isStopping s1) with (isStopping s). rewrite Es. change (a_b s1) with (a_b s).
             destruct (b_hasFbi (a_b s)) eqn:Eh; cbn [andb negb] in *.
             - destruct (N.leb seg (b_last (a_b s))) eqn:E1; [|apply N.ltb_ge in Ef; apply N.leb_gt in E1; lia].
               unfold onFailure, cancel. change (isStopping s1) with (isStopping s). rewrite Es. intros [].
             - assert (Hd : ~ In seg (keys (kdel seg (a_segs s1)))).
               { rewrite keys_kdel. intros H. apply filter_In in H. destruct H as [_ H]. rewrite N.eqb_refl in H. discriminate. }
               cbv zeta. destruct (a_segs (set_nInFlight _ _)).
               + unfold onFailure, cancel.
                 replace (isStopping _) with (isStopping s) by reflexivity. rewrite Es. intros [].
               + intros H. apply Hd.
                 destruct (pass_cancelGreater seg (set_nInFlight (a_nInFlight (set_segs (kdel seg (a_segs s1)) (emit (OAbandon seg) s1)) - 1)
                   (set_segs (kdel seg (a_segs s1)) (emit (OAbandon seg) s1)))) as (_ & _ & _ & Hi & _). exact (Hi seg H). }
           destruct HK as [K1 K2 K3]. constructor.
           ++ intros H. destruct (A4 H) as [H4|H4]; [|exact H4]. change (isStopping s1) with (isStopping s) in H4. congruence.
           ++ intros k Hk. rewrite A2. apply K2. exact (A3 k Hk).
           ++ intros k. rewrite A1, A2, E, count_app, count_rev, (dull_resend l k F), Z.add_0_l. cbn [s1 a_retxCount a_b a_tr set_retxCount].
              rewrite kget_kset. specialize (K3 k). destruct (N.eqb_spec k seg) as [->|Hne].
              ** split; [lia|]. split; [exact Hb|]. intros H. contradiction.
              ** destruct (kget k (a_retxCount s)); [|exact K3]. destruct K3 as (G1 & G2 & G3). split; [exact G1|]. split; [exact G2|].
                 intros H. apply G3. exact (A3 k H).
      * set (s1 := set_retxCount (kset seg (n + 1) (a_retxCount s)) s). split.
        -- pose proof (T_express seg true s1) as Ht. change (a_tr s1) with (a_tr s) in Ht.
           rewrite H3 in Ht. assert (E0 : (0 <? n) = true) by (apply Z.ltb_lt; lia). rewrite E0 in Ht.
           destruct Ht as (l & E & Ht). exists l. split; [exact E|exact Ht].
        -- apply K_express_again; auto. congruence.
    + split.
      * pose proof (T_express seg true (set_retxCount (kset seg 1 (a_retxCount s)) s)) as Ht.
        cbn [a_tr set_retxCount] in Ht. rewrite Hk in Ht. exact Ht.
      * apply K_express_again; auto. rewrite Hk. reflexivity.
  - split; [exact (T_express seg false s)|]. now apply K_express_first.
Qed.
Lemma TK_sendOne s : K s -> T s (ma_sendOne C s) (sendOne P C s) /\ K (sendOne P C s).
Proof.
  intros HK. unfold ma_sendOne, sendOne. pose proof (pass_dropSkipped (a_retxq s) s) as Hp.
  pose proof (dropSkipped_head (a_retxq s) s) as Hh.
  remember (dropSkipped (a_retxq s) s) as s1 eqn:E1. clear E1. pose proof (pass_K _ _ Hp HK) as HK1. apply pass_T in Hp.
  destruct (a_retxq s1) as [|seg q] eqn:Eq.
  - unfold b_getNext. set (b := PBase _ _ _ _ _ _).
    assert (HK2 : K (set_b b s1)).
    { destruct HK1 as [K1 K2 K3]. constructor; [exact K1| |].
      - intros k Hk. specialize (K2 k Hk). cbn. lia.
      - intros k. specialize (K3 k). cbn [a_retxCount set_b a_tr a_segs a_b]. destruct (kget k (a_retxCount s1)); [|exact K3].
        destruct K3 as (H1 & H2 & H3). split; [exact H1|]. split; [cbn; lia|exact H3]. }
    assert (Hn : kget (b_next (a_b s1)) (a_retxCount (set_b b s1)) = None).
    { pose proof (K_retx s1 HK1 (b_next (a_b s1))) as H. cbn [a_retxCount set_b]. destruct (kget _ _); [|reflexivity]. destruct H as (_ & H & _). lia. }
    destruct (TK_sendInterest (b_next (a_b s1)) false (set_b b s1) HK2) as [H1 H2]; [cbn; lia|exact Hn|].
    split; [|exact H2]. destruct H1 as (l & E & Ht). exact (T_trans _ [] _ _ _ Hp (ex_intro _ l (conj E Ht))).
  - assert (Hin : In seg (keys (a_segs s1))) by (eapply Hh; reflexivity).
    assert (HK2 : K (set_retxq q s1)) by (eapply pass_K; [|exact HK1]; apply pass_same; reflexivity).
    destruct (TK_sendInterest seg true (set_retxq q s1) HK2) as [H1 H2]; [exact (K_segs s1 HK1 seg Hin)|exact Hin|].
    split; [|exact H2]. destruct H1 as (l & E & Ht). exact (T_trans _ [] _ _ _ Hp (ex_intro _ l (conj E Ht))).
Qed.
Lemma TK_iter n : forall s, K s -> T s (ma_iter P C n s) (iter n (sendOne P C) s) /\ K (iter n (sendOne P C) s).
Proof.
  induction n as [|n IH]; intros s HK; cbn [ma_iter iter]; [split; [apply pass_T, pass_refl|exact HK]|].
  destruct (TK_sendOne s HK) as [H1 H2]. destruct (IH _ H2) as [H3 H4]. split; [exact (T_trans _ _ _ _ _ H1 H3)|exact H4].
Qed.
Lemma TK_schedule s : K s -> T s (ma_schedulePackets P C s) (schedulePackets P C s) /\ K (schedulePackets P C s).
Proof.
  intros HK. unfold ma_schedulePackets, schedulePackets. set (s1 := if a_nInFlight s <? 0 then emit OAssert s else s).
  assert (Hp : pass s s1) by (unfold s1; destruct (a_nInFlight s <? 0); [now apply pass_emit|apply pass_refl]).
  destruct (TK_iter (Z.to_nat (p_floor P (a_cwnd s1) - a_nInFlight s1)) s1 (pass_K _ _ Hp HK)) as [H1 H2].
  split; [exact (T_trans _ [] _ _ _ (pass_T _ _ Hp) H1)|exact H2].
Qed.

(** one observation that some message reports, and nothing else of interest *)
Lemma K_note o s s' : a_tr s' = o :: a_tr s -> (forall k, is_resend k o = false) -> a_retxCount s' = a_retxCount s ->
  b_next (a_b s') = b_next (a_b s) -> a_segs s' = a_segs s -> isStopping s' = isStopping s -> K s -> K s'.
Proof.
  intros E1 Ho E2 E3 E4 E5 [K1 K2 K3]. constructor; rewrite ?E5, ?E4, ?E3, ?E2; auto.
  intros k. specialize (K3 k). rewrite E1, count_cons, Ho, Z.add_0_l. exact K3.
Qed.

Lemma TK_recordTimeout seg s : K s ->
  T s (ma_recordTimeout P C cwnd ssthresh seg s) (recordTimeout P C seg s) /\ K (recordTimeout P C seg s).
Proof.
  intros HK. unfold ma_recordTimeout. remember (recordTimeout P C seg s) as s2 eqn:E2. unfold recordTimeout in E2.
  destruct (c_disableCwa C || N.ltb (a_recPoint s) seg); [|subst s2; split; [apply pass_T, pass_refl|exact HK]].
  set (s1 := decreaseWindow P (set_recPoint (a_highInterest s) s)) in E2.
  assert (Hp : pass s s1).
  { eapply pass_trans; [apply (pass_same s (set_recPoint (a_highInterest s) s)); reflexivity|].
    unfold s1, decreaseWindow. eapply pass_trans; [|now apply pass_emit]. apply pass_same; reflexivity. }
  split.
  - assert (H2 : T s1 [MLoss (cwnd (a_cwnd s2)) (ssthresh (a_cwnd s2))] s2).
    { exists [ODecrLoss seg]. split; [now rewrite E2|]. constructor; try reflexivity. constructor. }
    exact (T_trans _ [] _ _ _ (pass_T _ _ Hp) H2).
  - eapply (K_note (ODecrLoss seg) s1); try (rewrite E2; reflexivity); [reflexivity|]. exact (pass_K _ _ Hp HK).
Qed.
Lemma pass_enqueue seg s : pass s (enqueueForRetransmission seg s).
Proof.
  unfold enqueueForRetransmission. set (s1 := if 0 <? a_nInFlight s then s else emit OAssert s).
  assert (Hp : pass s s1) by (unfold s1; destruct (0 <? a_nInFlight s); [apply pass_refl|now apply pass_emit]).
  cbv zeta. set (s2 := set_retxq (a_retxq (set_nInFlight (a_nInFlight s1 - 1) s1) ++ [seg]) (set_nInFlight (a_nInFlight s1 - 1) s1)).
  assert (Hp2 : pass s s2) by (eapply pass_trans; [exact Hp|]; apply pass_same; reflexivity).
  destruct (kget seg (a_segs s2)) as [i|] eqn:Ek.
  - eapply pass_trans; [exact Hp2|]. split; [exists []; split; [reflexivity|constructor]|]. repeat split; auto.
    cbn [a_segs set_segs]. intros k Hk. apply in_kset in Hk. destruct Hk as [->|Hk]; [|exact Hk]. apply kget_some_keys. eauto.
  - eapply pass_trans; [exact Hp2|]. unfold throw. eapply pass_trans; [apply (pass_emit OThrow); reflexivity|]. apply pass_same; reflexivity.
Qed.
Lemma pass_checkRto1 s has high seg : pass s (fst (fst (checkRto1 (s, has, high) seg))).
Proof.
  unfold checkRto1. destruct (kget seg (a_segs s)) as [i|]; [|apply pass_refl].
  destruct (_ && _); [|apply pass_refl]. cbn [fst]. eapply pass_trans; [|apply pass_enqueue].
  eapply pass_trans; [|now apply pass_emit]. apply pass_same; reflexivity.
Qed.
Lemma pass_fold l : forall acc, pass (fst (fst acc)) (fst (fst (fold_left checkRto1 l acc))).
Proof.
  induction l as [|k l IH]; intros [[s has] high]; cbn [fold_left]; [apply pass_refl|].
  eapply pass_trans; [apply (pass_checkRto1 s has high k)|]. apply IH.
Qed.
Lemma TK_loss seg s : K s ->
  T s (ma_recordTimeout P C cwnd ssthresh seg s ++ ma_schedulePackets P C (recordTimeout P C seg s)) (schedulePackets P C (recordTimeout P C seg s)) /\
  K (schedulePackets P C (recordTimeout P C seg s)).
Proof.
  intros HK. destruct (TK_recordTimeout seg s HK) as [H1 H2]. destruct (TK_schedule _ H2) as [H3 H4].
  split; [exact (T_trans _ _ _ _ _ H1 H3)|exact H4].
Qed.
Lemma TK_checkRto order s : K s -> T s (ma_checkRto P C cwnd ssthresh order s) (checkRto P C order s) /\ K (checkRto P C order s).
Proof.
  intros HK. unfold ma_checkRto, checkRto. destruct (isStopping s); [split; [apply pass_T, pass_refl|exact HK]|].
  pose proof (pass_fold (visit_order order (keys (a_segs s))) (s, false, 0%N)) as Hp.
  destruct (fold_left checkRto1 (visit_order order (keys (a_segs s))) (s, false, 0%N)) as [[s1 has] high]. cbn [fst] in Hp.
  pose proof (pass_K _ _ Hp HK) as HK1. apply pass_T in Hp.
  destruct (a_crashed s1); [split; assumption|]. cbv zeta. destruct has.
  - destruct (TK_loss high s1 HK1) as [H1 H2]. pose proof (T_trans _ _ _ _ _ Hp H1) as H3. cbn [app] in H3. split.
    + destruct H3 as (l & E & Ht). exists l. split; [exact E|exact Ht].
    + eapply pass_K; [|exact H2]. apply pass_same; reflexivity.
  - split; [destruct Hp as (l & E & Ht); exists l; split; [exact E|exact Ht]|]. eapply pass_K; [|exact HK1]. apply pass_same; reflexivity.
Qed.
Lemma pass_learn d s : pass s (fst (learnFbi d s)).
Proof.
  unfold learnFbi. destruct (b_hasFbi (a_b s)); [apply pass_refl|].
  destruct (d_fbi d) as [|n|]; [apply pass_refl| |].
  - set (s1 := cancelGreater n (set_b (b_setFbi n (a_b s)) s)).
    assert (Hp : pass s s1) by (eapply pass_trans; [apply (pass_same s (set_b (b_setFbi n (a_b s)) s)); reflexivity|apply pass_cancelGreater]).
    destruct (a_hasFailure s1 && N.leb (a_failedSeg s1) n); cbn [fst]; (eapply pass_trans; [exact Hp|]); [apply pass_onFailure|apply pass_same; reflexivity].
  - cbn [fst]. unfold throw. eapply pass_trans; [apply (pass_emit OThrow); reflexivity|apply pass_same; reflexivity].
Qed.
Lemma TK_adaptWindow seg d s : K s ->
  T s (ma_adaptWindow P C cwnd seg d s) (adaptWindow P C seg d s) /\ K (adaptWindow P C seg d s).
Proof.
  intros HK. unfold ma_adaptWindow. remember (adaptWindow P C seg d s) as s2 eqn:E2. unfold adaptWindow in E2.
  assert (Hincr : forall s0, pass s s0 -> pass s (increaseWindow P s0)).
  { intros s0 H0. eapply pass_trans; [exact H0|]. unfold increaseWindow. eapply pass_trans; [|now apply pass_emit]. apply pass_same; reflexivity. }
  destruct (d_mark d).
  2: { assert (Hp : pass s s2) by (subst s2; apply Hincr, pass_refl). split; [now apply pass_T|eapply pass_K; eauto]. }
  cbv zeta in E2.
  destruct (negb (c_ignoreCongMarks C)).
  2: { assert (Hp : pass s s2) by (subst s2; apply Hincr, pass_same; reflexivity). split; [now apply pass_T|eapply pass_K; eauto]. }
  change (a_recPoint (set_nCongMarks (a_nCongMarks s + 1) s)) with (a_recPoint s) in E2.
  change (a_highData (set_nCongMarks (a_nCongMarks s + 1) s)) with (a_highData s) in E2.
  destruct (c_disableCwa C || N.ltb (a_recPoint s) (a_highData s)).
  2: { assert (Hp : pass s s2) by (subst s2; apply pass_same; reflexivity). split; [now apply pass_T|eapply pass_K; eauto]. }
  match type of E2 with s2 = decreaseWindow P (emit (ODecrMark seg) ?x) => set (s1 := x) in E2 end.
  assert (Hp1 : pass s s1) by (apply pass_same; reflexivity).
  assert (HK3 : K (emit (ODecrMark seg) s1)).
  { eapply (K_note (ODecrMark seg) s1); try reflexivity. exact (pass_K _ _ Hp1 HK). }
  assert (Hp2 : pass (emit (ODecrMark seg) s1) s2).
  { subst s2. unfold decreaseWindow. eapply pass_trans; [|now apply pass_emit]. apply pass_same; reflexivity. }
  split; [|exact (pass_K _ _ Hp2 HK3)].
  assert (H2 : T s1 [MMark seg d (cwnd (a_cwnd s2))] (emit (ODecrMark seg) s1)).
  { exists [ODecrMark seg]. split; [reflexivity|]. constructor; try reflexivity. constructor. }
  pose proof (T_trans _ _ _ _ _ (T_trans _ _ _ _ _ (pass_T _ _ Hp1) H2) (pass_T _ _ Hp2)) as H. exact H.
Qed.
Lemma pass_sample seg i rtt s : pass s (sampleRtt P seg i rtt s).
Proof.
  unfold sampleRtt. destruct (_ && _); [|apply pass_refl]. cbv zeta. eapply pass_trans; [|now apply pass_emit]. apply pass_same; reflexivity.
Qed.
Lemma TK_onData seg d (rtt rto : Z) s : K s -> T s [MReceivedRtt seg rtt rto] (onData C seg d s) /\ K (onData C seg d s).
Proof.
  intros HK. set (s1 := emit (ODeliver seg d) (set_b (b_received d (a_b s)) s)).
  assert (H1 : T s [MReceivedRtt seg rtt rto] s1).
  { exists [ODeliver seg d]. split; [reflexivity|]. constructor; try reflexivity. constructor. }
  assert (HK1 : K s1) by (eapply (K_note (ODeliver seg d) s); try reflexivity; exact HK).
  unfold onData. fold s1. cbv zeta. destruct (c_cbThrows C d); [|split; assumption].
  assert (Hp : pass s1 (throw s1)) by (unfold throw; eapply pass_trans; [apply (pass_emit OThrow); reflexivity|apply pass_same; reflexivity]).
  split; [exact (T_trans _ _ _ _ _ H1 (pass_T _ _ Hp))|exact (pass_K _ _ Hp HK1)].
Qed.
Lemma K_done s : K s -> K (emit ODone s).
Proof. intros H. eapply (K_note ODone s); try reflexivity. exact H. Qed.
Lemma TK_done s : K s -> T s [MSummary (summary (emit ODone (cancel s)))] (emit ODone (cancel s)) /\ K (emit ODone (cancel s)).
Proof.
  intros HK. pose proof (pass_cancel s) as Hp. split; [|apply K_done; exact (pass_K _ _ Hp HK)].
  refine (T_trans _ [] _ _ _ (pass_T _ _ Hp) _). exists [ODone]. split; [reflexivity|]. constructor; try reflexivity. constructor.
Qed.
(** the order of lines of different kinds does not matter *)
Lemma tells_swap past m l seg d rtt rto s :
  tells r false past (ma_adaptWindow P C cwnd seg d s ++ MReceivedRtt seg rtt rto :: m) l ->
  tells r false past (MReceivedRtt seg rtt rto :: ma_adaptWindow P C cwnd seg d s ++ m) l.
Proof.
  unfold ma_adaptWindow. destruct (d_mark d); [|auto]. destruct (negb _); [|auto]. destruct (_ || _); [|auto].
  intros [A1 A2 A3 A4 A5 A6 A7 A8 A9]. constructor; assumption.
Qed.
Lemma TK_handleData seg d s : K s ->
  T s (ma_handleData P C cwnd summary seg d s) (handleData P C seg d s) /\ K (handleData P C seg d s).
Proof.
  intros HK. unfold ma_handleData, handleData. destruct (isStopping s); [split; [apply pass_T, pass_refl|exact HK]|].
  pose proof (pass_learn d s) as Hp. destruct (learnFbi d s) as [s1 continue]. cbn [fst] in Hp.
  pose proof (pass_K _ _ Hp HK) as HK1. apply pass_T in Hp.
  destruct (negb continue); [split; assumption|].
  destruct (kget seg (a_segs s1)) as [i|]; [|split; assumption]. cbv zeta.
  set (s2 := set_highData (N.max (a_highData s1) seg) s1).
  set (s3 := if state_eqb (si_state i) InRetxQueue then s2 else set_nInFlight (a_nInFlight s2 - 1) s2).
  assert (Hp3 : pass s1 s3).
  { eapply pass_trans; [apply (pass_same s1 s2); reflexivity|]. unfold s3. destruct (state_eqb _ _); [apply pass_refl|apply pass_same; reflexivity]. }
  pose proof (pass_K _ _ Hp3 HK1) as HK3. apply pass_T in Hp3. pose proof (T_trans _ _ _ _ _ Hp Hp3) as HT3. cbn [app] in HT3.
  destruct (TK_adaptWindow seg d s3 HK3) as [HT4 HK4]. set (s4 := adaptWindow P C seg d s3) in *.
  destruct (TK_onData seg d (a_now s1 - si_timeSent i) (si_rto i) s4 HK4) as [HT5 HK5]. set (s5 := onData C seg d s4) in *.
  pose proof (T_trans _ _ _ _ _ (T_trans _ _ _ _ _ HT3 HT4) HT5) as HT. cbn [app] in HT.
  assert (Hswap : forall m s', T s5 m s' ->
    T s (MReceivedRtt seg (a_now s1 - si_timeSent i) (si_rto i) :: ma_adaptWindow P C cwnd seg d s3 ++ m) s').
  { intros m s' H. pose proof (T_trans _ _ _ _ _ HT H) as (l & E & Ht). exists l. split; [exact E|]. apply tells_swap.
    rewrite <- app_assoc in Ht. exact Ht. }
  destruct (a_crashed s5); [split; [apply Hswap, pass_T, pass_refl|exact HK5]|].
  set (s6 := sampleRtt P seg i (a_now s1 - si_timeSent i) s5). set (s7 := set_segs (kdel seg (a_segs s6)) s6).
  assert (Hp7 : pass s5 s7) by (eapply pass_trans; [apply pass_sample|apply pass_del]).
  pose proof (pass_K _ _ Hp7 HK5) as HK7. apply pass_T in Hp7.
  destruct (b_allReceived (a_b s7)).
  - destruct (TK_done s7 HK7) as [H1 H2]. split; [|exact H2]. apply Hswap. exact (T_trans _ _ _ _ _ Hp7 H1).
  - destruct (TK_schedule s7 HK7) as [H1 H2]. split; [|exact H2]. apply Hswap. exact (T_trans _ _ _ _ _ Hp7 H1).
Qed.
Lemma isends seg t : interests_for seg t = count (is_send seg) t.
Proof. reflexivity. Qed.
Lemma TK_nack seg rs s : K s -> isStopping s = false ->
  T s (ma_handleNack P C cwnd ssthresh seg rs (emit (OGotNack seg rs) s)) (handleNack P C seg rs (emit (OGotNack seg rs) s)) /\
  K (handleNack P C seg rs (emit (OGotNack seg rs) s)).
Proof.
  intros HK Hs. set (s1 := emit (OGotNack seg rs) s).
  assert (H1 : T s [MNack seg (interests_for seg (a_tr s1)) rs] s1).
  { exists [OGotNack seg rs]. split; [reflexivity|]. rewrite isends. cbn [s1 emit a_tr set_tr]. rewrite count_cons. cbn [is_send]. rewrite Z.add_0_l.
    constructor; try reflexivity. constructor. }
  assert (HK1 : K s1) by (eapply (K_note (OGotNack seg rs) s); try reflexivity; exact HK).
  assert (Hs1 : isStopping s1 = false) by exact Hs.
  assert (Hgo : forall m s', T s1 m s' /\ K s' -> T s (MNack seg (interests_for seg (a_tr s1)) rs :: m) s' /\ K s').
  { intros m s' [H2 H3]. split; [exact (T_trans _ _ _ _ _ H1 H2)|exact H3]. }
  unfold ma_handleNack, handleNack. rewrite Hs1.
  assert (Hf : pass s1 (handleFail seg (RNack seg rs) s1)) by apply pass_handleFail.
  destruct rs; apply Hgo; try (split; [apply pass_T; exact Hf|exact (pass_K _ _ Hf HK1)]).
  - pose proof (pass_enqueue seg s1) as Hp. pose proof (pass_K _ _ Hp HK1) as HK2. apply pass_T in Hp. cbv zeta.
    destruct (a_crashed (enqueueForRetransmission seg s1)); [split; assumption|].
    destruct (TK_loss seg _ HK2) as [H2 H3]. split; [exact (T_trans _ _ _ _ _ Hp H2)|exact H3].
  - split; [apply pass_T, pass_refl|exact HK1].
Qed.
Lemma TK_expire seg s : K s -> T s (ma_handleLifetimeExpiration P C cwnd ssthresh seg s) (handleLifetimeExpiration P C seg s) /\
  K (handleLifetimeExpiration P C seg s).
Proof.
  intros HK. unfold ma_handleLifetimeExpiration, handleLifetimeExpiration. destruct (isStopping s); [split; [apply pass_T, pass_refl|exact HK]|].
  cbv zeta. set (s1 := set_nTimeouts (a_nTimeouts s + 1) s).
  assert (Hp : pass s (enqueueForRetransmission seg s1)) by (eapply pass_trans; [apply (pass_same s s1); reflexivity|apply pass_enqueue]).
  pose proof (pass_K _ _ Hp HK) as HK2. apply pass_T in Hp.
  destruct (a_crashed (enqueueForRetransmission seg s1)); [split; assumption|].
  destruct (TK_loss seg _ HK2) as [H2 H3]. split; [exact (T_trans _ _ _ _ _ Hp H2)|exact H3].
Qed.

Lemma TK_step s e : K s -> T s (ma_step P C cwnd ssthresh summary s e) (a_step P C s e) /\ K (a_step P C s e).
Proof.
  intros HK. unfold ma_step, a_step. destruct (a_crashed s); [split; [apply pass_T, pass_refl|exact HK]|].
  assert (Hface : forall seg i, kget seg (a_segs s) = Some i ->
    let s1 := set_segs (kset seg (SegInfo false (si_timeSent i) (si_rto i) (si_state i)) (a_segs s)) s in pass s s1 /\ isStopping s = false).
  { intros seg i Ek s1. split.
    - split; [exists []; split; [reflexivity|constructor]|]. repeat split; auto. cbn [s1 a_segs set_segs]. intros k Hk.
      apply in_kset in Hk. destruct Hk as [->|Hk]; [|exact Hk]. apply kget_some_keys. eauto.
    - destruct (isStopping s) eqn:Es; [|reflexivity]. rewrite (K_stop s HK Es) in Ek. discriminate. }
  destruct e; unfold ma_fromFace, fromFace.
  - destruct (kget seg (a_segs s)) as [i|] eqn:Ek; [|split; [apply pass_T, pass_refl|exact HK]].
    destruct (si_live i); [|split; [apply pass_T, pass_refl|exact HK]]. destruct (Hface seg i Ek) as [Hp Hs].
    set (s1 := set_segs _ s) in *.
    assert (Hp2 : pass s (emit (OGotData seg d) s1)) by (eapply pass_trans; [exact Hp|now apply pass_emit]).
    destruct (TK_handleData seg d _ (pass_K _ _ Hp2 HK)) as [H1 H2]. split; [exact (T_trans _ [] _ _ _ (pass_T _ _ Hp2) H1)|exact H2].
  - destruct (kget seg (a_segs s)) as [i|] eqn:Ek; [|split; [apply pass_T, pass_refl|exact HK]].
    destruct (si_live i); [|split; [apply pass_T, pass_refl|exact HK]]. destruct (Hface seg i Ek) as [Hp Hs].
    set (s1 := set_segs _ s) in *.
    destruct (TK_nack seg r s1 (pass_K _ _ Hp HK) Hs) as [H1 H2]. split; [exact (T_trans _ [] _ _ _ (pass_T _ _ Hp) H1)|exact H2].
  - destruct (kget seg (a_segs s)) as [i|] eqn:Ek; [|split; [apply pass_T, pass_refl|exact HK]].
    destruct (si_live i); [|split; [apply pass_T, pass_refl|exact HK]]. destruct (Hface seg i Ek) as [Hp Hs].
    set (s1 := set_segs _ s) in *.
    assert (Hp2 : pass s (emit (OGotExpiry seg) s1)) by (eapply pass_trans; [exact Hp|now apply pass_emit]).
    destruct (TK_expire seg _ (pass_K _ _ Hp2 HK)) as [H1 H2]. split; [exact (T_trans _ [] _ _ _ (pass_T _ _ Hp2) H1)|exact H2].
  - destruct (a_timer s); [|split; [apply pass_T, pass_refl|exact HK]].
    assert (Hp : pass s (set_timer false s)) by (apply pass_same; reflexivity).
    destruct (TK_checkRto order _ (pass_K _ _ Hp HK)) as [H1 H2]. split; [exact (T_trans _ [] _ _ _ (pass_T _ _ Hp) H1)|exact H2].
  - assert (Hp : pass s (set_now (a_now s + Z.of_N dt) s)) by (apply pass_same; reflexivity).
    split; [now apply pass_T|exact (pass_K _ _ Hp HK)].
  - assert (Hp : pass s (cancel (emit OGotCancel s))) by (eapply pass_trans; [apply (pass_emit OGotCancel); reflexivity|apply pass_cancel]).
    split; [now apply pass_T|exact (pass_K _ _ Hp HK)].
Qed.
Lemma TK_from es : forall s, K s ->
  T s (ma_from P C cwnd ssthresh summary s es) (fold_left (a_step P C) es s) /\ K (fold_left (a_step P C) es s).
Proof.
  induction es as [|e es IH]; intros s HK; cbn [ma_from fold_left]; [split; [apply pass_T, pass_refl|exact HK]|].
  destruct (TK_step s e HK) as [H1 H2]. destruct (IH _ H2) as [H3 H4]. split; [exact (T_trans _ _ _ _ _ H1 H3)|exact H4].
Qed.
Lemma K_init : K (a_init P).
Proof. constructor; cbn; try discriminate; try contradiction. reflexivity. Qed.
Lemma TK_start : T (a_init P) (ma_start P C summary) (doRun P C (a_init P)) /\ K (doRun P C (a_init P)).
Proof.
  unfold ma_start, doRun. cbv zeta. destruct (b_allReceived (a_b (a_init P))); [apply TK_done, K_init|].
  assert (Hp : pass (a_init P) (set_timer true (a_init P))) by (apply pass_same; reflexivity).
  destruct (TK_schedule _ (pass_K _ _ Hp K_init)) as [H1 H2]. split; [exact (T_trans _ [] _ _ _ (pass_T _ _ Hp) H1)|exact H2].
Qed.

Theorem adaptive_lines es : tells r false [] (ma_run P C cwnd ssthresh summary es) (a_history (a_run P C es)).
Proof.
  destruct TK_start as [H1 H2]. destruct (TK_from es _ H2) as [H3 _]. destruct (T_trans _ _ _ _ _ H1 H3) as (l & E & Ht).
  cbn [a_init a_tr] in E, Ht. rewrite app_nil_r in E. unfold a_history, a_run. rewrite E, rev_involutive. exact Ht.
Qed.
End Adaptive.
