(** Lemmas about ndnpeek and ndnpoke in a network. *)
From Verif Require Import Base TlvModel TlvProofs PeekModel PeekProofs PeekPokeModel PeekPokeSpec.

Section P.
Variable digest : packet -> component.
Variable sign : packet -> list N * list N.
Variable i : interest.
Variable po : peek_opts.
Variable o : poke_opts.
Variable input : list N.
Notation fits := (data_fits sign).
Notation d := (poke_data o input).
Notation run := (pp_run digest sign i po o input).
Notation step := (pp_step digest sign i po o input).
Notation prun := (poke_run digest fits o input).

Lemma nrun_snoc es e : run (es ++ [e]) = step (run es) e.
Proof. unfold pp_run. now rewrite fold_left_app. Qed.

(** what ndnpoke sees *)
Definition view (e : pp_event) : list poke_event :=
  match e with
  | NpReg => [PoRegSuccess] | NpRegFail => [PoRegFailure] | NpPokeTimer => [PoTimer]
  | NpInterest => if is_prefix_of (pp_name o) (i_name i) then [PoInterest i] else []
  | NpOther j => if is_prefix_of (pp_name o) (i_name j) then [PoInterest j] else []
  | _ => []
  end.
Lemma poke_view es : np_poke (run es) = prun (flat_map view es).
Proof.
  induction es as [|e es IH] using rev_ind; [reflexivity|].
  rewrite nrun_snoc, flat_map_app. cbn [flat_map]. rewrite app_nil_r. unfold poke_run. rewrite fold_left_app. fold (prun (flat_map view es)).
  rewrite <- IH. destruct e; cbn [pp_step view fold_left to_poke to_peek np_poke]; try reflexivity.
  - unfold poke_gets. destruct (is_prefix_of _ _); reflexivity.
  - unfold poke_gets. destruct (is_prefix_of _ _); reflexivity.
  - destruct (pp_sent _); [reflexivity|]. destruct (matches_data _ _ _); reflexivity.
Qed.

Lemma sent_cases es : pp_sent (np_poke (run es)) = [] \/ pp_sent (np_poke (run es)) = [d] /\ fits d = true.
Proof.
  rewrite poke_view. pose proof (pinv_run digest fits o input (flat_map view es)) as I.
  destruct (pp_sent (prun (flat_map view es))) as [|x l] eqn:E; [now left|right].
  pose proof (pi_once _ _ _ _ _ _ I) as H1. pose proof (pi_which _ _ _ _ _ _ I x) as H2. rewrite E in H1, H2.
  destruct H2 as [-> Hf]; [now left|]. destruct l; [now split|cbn in H1; lia].
Qed.
Lemma sent_ended es : pp_sent (np_poke (run es)) <> [] -> poke_ended (np_poke (run es)) = true.
Proof.
  rewrite poke_view. intros H. pose proof (pinv_run digest fits o input (flat_map view es)) as I.
  apply (pi_res _ _ _ _ _ _ I) in H. unfold poke_ended.
  destruct (pp_reg (prun (flat_map view es))) eqn:Er.
  - destruct (pi_shut _ _ _ _ _ _ I (or_introl Er)) as [-> _]. now rewrite orb_true_r.
  - destruct (pi_open _ _ _ _ _ _ I (or_introl Er)). congruence.
  - destruct (pi_open _ _ _ _ _ _ I (or_intror Er)). congruence.
  - destruct (pi_shut _ _ _ _ _ _ I (or_intror Er)) as [-> _]. now rewrite orb_true_r.
Qed.
Lemma sent_stays es es' : pp_sent (np_poke (run es)) <> [] -> np_poke (run (es ++ es')) = np_poke (run es).
Proof.
  intros H. apply sent_ended in H. revert H. rewrite !poke_view, flat_map_app. apply poke_stable.
Qed.
Lemma sent_status es : pp_sent (np_poke (run es)) <> [] -> poke_status (np_poke (run es)) = 0%Z.
Proof.
  intros H. rewrite poke_view in *. destruct (poke_status_meaning digest fits o input (flat_map view es)) as [[_ S] _]. apply S.
  destruct (sent_cases es) as [E|[E _]]; rewrite poke_view in E; congruence.
Qed.

(** the wire and its content *)
Lemma length_encode_in es t v : In (t, v) es -> (length v <= length (encode_all es))%nat.
Proof.
  unfold encode_all. induction es as [|[t' v'] es IH]; [intros []|]. cbn [flat_map fst snd]. rewrite app_length.
  intros [[= -> ->]|H]; [|apply IH in H; lia]. unfold tlv. rewrite !app_length. lia.
Qed.
Lemma wire_content : fits d = true -> content_of_wire (data_wire sign d) = input.
Proof.
  intros H. apply Nat.leb_le in H.
  set (es := data_elements sign d).
  assert (L : (length (encode_all es) <= 8 * 1100)%nat).
  { unfold data_wire in H. fold es in H. change (flat_map _ es) with (encode_all es) in H. unfold tlv in H. rewrite !app_length in H. lia. }
  assert (U : forall k, (k <= 8 * 1100)%nat -> u64 (N.of_nat k)) by (intros; unfold u64; lia).
  assert (E : es = firstn 2 es ++ (TContent, input) :: skipn 3 es) by reflexivity.
  unfold data_wire. fold es. change (flat_map _ es) with (encode_all es). rewrite E. apply content_of_data; rewrite <- ?E.
  - apply Forall_forall. intros [t v] Hin. split.
    + cbn in Hin. repeat destruct Hin as [Hin|Hin]; try (injection Hin as <- _; vm_compute; split; reflexivity). destruct Hin.
    + apply U. apply length_encode_in in Hin. cbn [snd]. lia.
  - now apply U.
  - cbn. intros e [<-|[<-|[]]]; discriminate.
Qed.

(** what ndnpeek sees *)
Definition answer : list N := if pk_payloadOnly po then input else data_wire sign d.
Lemma answer_shown : fits d = true -> (if pk_payloadOnly po then content_of_wire (data_wire sign d) else data_wire sign d) = answer.
Proof. intros H. unfold answer. destruct (pk_payloadOnly po); [now apply wire_content|reflexivity]. Qed.

Record kinv (es : list pp_event) (y : pp_system) : Prop := {
  ki_wait : pk_pending (np_peek y) = true -> np_peek y = peek_start po;
  ki_data : pk_result (np_peek y) = PkData ->
            pk_out (np_peek y) = [answer] /\ pp_sent (np_poke y) = [d] /\ matches_data digest i d = true /\ fits d = true;
  ki_end  : pk_pending (np_peek y) = false -> pk_timer (np_peek y) = false
}.
Lemma kinv_run es : kinv es (run es).
Proof.
  induction es as [|e es IH] using rev_ind; [constructor; cbn; auto; discriminate|].
  pose proof (sent_cases es) as SC. pose proof (sent_stays es [e]) as SS.
  rewrite nrun_snoc in *. destruct IH as [K1 K2 K3].
  assert (KP : forall x, np_peek (step (run es) e) = np_peek (run es) -> kinv x (step (run es) e)).
  { intros x Heq. constructor; rewrite Heq; auto. intros H. destruct (K2 H) as (A & B & C & D).
    repeat split; auto. rewrite SS by (rewrite B; discriminate). exact B. }
  assert (KT : forall x (s' : peek), np_poke (step (run es) e) = np_poke (run es) ->
     np_peek (step (run es) e) = s' ->
     (s' = np_peek (run es) \/ (pk_pending s' = false /\ pk_timer s' = false /\ pk_result s' <> PkData)) -> kinv x (step (run es) e)).
  { intros x s' _ E2 [->|(P & T & R)]; [now apply KP|]. constructor; rewrite E2; intros; auto; congruence. }
  destruct e.
  1,2,9: now apply KP.
  - apply KP. cbn [pp_step]. unfold poke_gets. now destruct (is_prefix_of _ _).
  - apply KP. cbn [pp_step]. unfold poke_gets. now destruct (is_prefix_of _ _).
  - cbn [pp_step]. cbn [pp_step] in KP. destruct SC as [E|[E F]]; rewrite E in *; [now apply KP|].
    destruct (matches_data digest i d) eqn:M; [|now apply KP].
    unfold to_peek, peek_step in *. cbn [np_peek np_poke] in *. destruct (pk_pending (np_peek (run es))) eqn:P; [|now apply KP].
    rewrite (K1 eq_refl). constructor; cbn [np_peek np_poke peek_onData peek_forget peek_start pk_pending pk_timer pk_result pk_out].
    + discriminate.
    + intros _. repeat split; auto. cbn [app]. now rewrite answer_shown.
    + reflexivity.
  - eapply KT; [reflexivity|reflexivity|]. cbn [pp_step to_peek np_peek peek_step]. destruct (pk_pending _); [right|now left].
    repeat split; discriminate.
  - eapply KT; [reflexivity|reflexivity|]. cbn [pp_step to_peek np_peek peek_step]. destruct (pk_pending _); [right|now left].
    repeat split; discriminate.
  - eapply KT; [reflexivity|reflexivity|]. cbn [pp_step to_peek np_peek peek_step]. destruct (pk_timer _); [right|now left].
    repeat split; discriminate.
Qed.

Lemma peek_prints_input es : peek_status (pk_result (np_peek (run es))) = 0%Z ->
  pk_out (np_peek (run es)) = [if pk_payloadOnly po then input else data_wire sign d] /\
  matches_data digest i d = true /\
  pp_sent (np_poke (run es)) = [d] /\ poke_status (np_poke (run es)) = 0%Z.
Proof.
  intros H. assert (R : pk_result (np_peek (run es)) = PkData) by (destruct (pk_result _); cbn in H; congruence).
  destruct (ki_data _ _ (kinv_run es) R) as (A & B & C & D). repeat split; auto.
  apply sent_status. rewrite B. discriminate.
Qed.

(** ** which Interests are answered *)
Lemma matches_iff : is_prefix_of (pp_name o) (i_name i) = true ->
  (matches_data digest i d = true <-> asks_exactly i (pp_name o) (digest d) (pp_fresh o)).
Proof.
  intros HP. apply is_prefix_of_spec in HP as [c HP]. unfold matches_data, asks_exactly. cbn [k_fresh k_name poke_data].
  rewrite HP. destruct (i_mustBeFresh i && (pp_fresh o <=? 0)%Z) eqn:Ef.
  { apply andb_true_iff in Ef as [E1 E2]. apply Z.leb_le in E2. split; [discriminate|]. intros [_ H]. specialize (H E1). lia. }
  assert (F : i_mustBeFresh i = true -> (0 < pp_fresh o)%Z).
  { intros E. rewrite E in Ef. cbn in Ef. apply Z.leb_gt in Ef. exact Ef. }
  assert (NE : forall l : name, (pp_name o ++ l = pp_name o) <-> l = []).
  { intros l. split; [|intros ->; apply app_nil_r]. intros H. apply (app_inv_head (pp_name o)). now rewrite app_nil_r. }
  rewrite NE. rewrite app_length. destruct (Nat.eqb_spec (length (pp_name o) + length c) (length (pp_name o) + 1)) as [El|El].
  - destruct c as [|x [|]]; cbn in El; try lia. rewrite last_comp_app. rewrite andb_true_iff, N.eqb_eq, name_eqb_spec. unfold TImplicitDigest.
    split.
    + intros [H1 H2]. split; [|exact F]. right. apply app_inv_head in H2. injection H2 as ->. auto.
    + intros [[H|[H1 H2]] _]; [discriminate|]. apply app_inv_head in H1. injection H1 as ->. auto.
  - assert (Q : (c = [] \/ pp_name o ++ c = pp_name o ++ [digest d] /\ c_type (digest d) = 1%N) <-> c = []).
    { split; [|now left]. intros [H|[H _]]; [exact H|]. apply app_inv_head in H. subst c. cbn in El. lia. }
    rewrite Q. destruct (i_canBePrefix i).
    + rewrite is_prefix_of_spec. split.
      * intros [c' H]. rewrite <- app_assoc in H. symmetry in H. apply NE in H. apply app_eq_nil in H as [-> _]. auto.
      * intros [-> _]. exists []. now rewrite !app_nil_r.
    + rewrite name_eqb_spec, NE. tauto.
Qed.
Lemma asks_prefix : asks_exactly i (pp_name o) (digest d) (pp_fresh o) -> is_prefix_of (pp_name o) (i_name i) = true.
Proof.
  intros [[->|[-> _]] _]; apply is_prefix_of_spec; [exists []; now rewrite app_nil_r|now exists [digest d]].
Qed.

(** ** nothing else is answered *)
Lemma never_answered es :
  pp_unsolicited o = false -> ~ asks_exactly i (pp_name o) (digest d) (pp_fresh o) ->
  (forall e, In e es -> ~ by_others e) ->
  pp_sent (np_poke (run es)) = [] /\ peek_status (pk_result (np_peek (run es))) <> 0%Z.
Proof.
  intros Hu Hn Ho. assert (E : pp_sent (np_poke (run es)) = []).
  { destruct (pp_sent (np_poke (run es))) as [|x l] eqn:E; [reflexivity|exfalso].
    rewrite poke_view in E. destruct (poke_why digest fits o input (flat_map view es)) as [H|(e1 & j & e2 & H & _ & M)];
      [rewrite E; discriminate|congruence|].
    assert (Hin : In (PoInterest j) (flat_map view es)) by (rewrite H; apply in_or_app; right; now left).
    apply in_flat_map in Hin as (e & He & Hv). destruct e; cbn in Hv; try (destruct Hv as [Hv|[]]; discriminate); try now destruct Hv.
    - destruct (is_prefix_of _ _) eqn:P; [|destruct Hv]. destruct Hv as [[= <-]|[]]. apply Hn. now apply matches_iff.
    - now apply (Ho _ He). }
  split; [exact E|]. intros H. apply peek_prints_input in H as (_ & _ & H & _). congruence.
Qed.

(** ** progress *)
Lemma peek_open es : Forall undisturbed es -> np_peek (run es) = peek_start po \/ pk_result (np_peek (run es)) = PkData.
Proof.
  induction es as [|e es IH] using rev_ind; [now left|]. intros H. apply Forall_app in H as [H He]. apply Forall_cons_iff in He as [He _].
  specialize (IH H). rewrite nrun_snoc. destruct e; try destruct He; cbn [pp_step]; auto.
  - unfold poke_gets. destruct (is_prefix_of _ _); auto.
  - unfold poke_gets. destruct (is_prefix_of _ _); auto.
  - destruct (pp_sent _); [exact IH|]. destruct (matches_data _ _ _); [|exact IH]. cbn [to_peek np_peek peek_step].
    destruct (pk_pending _); [now right|exact IH].
Qed.
Lemma poke_open es : Forall undisturbed es -> fits d = true -> poke_ended (np_poke (run es)) = true -> pp_sent (np_poke (run es)) = [d].
Proof.
  intros H Hf He. rewrite poke_view in *. pose proof (pinv_run digest fits o input (flat_map view es)) as I.
  assert (NI : forall x, In x (flat_map view es) -> x <> PoTimer /\ x <> PoRegFailure).
  { intros x Hx. apply in_flat_map in Hx as (e & Hin & Hv). pose proof (proj1 (Forall_forall _ _) H e Hin) as U.
    destruct e; try destruct U; cbn in Hv; try (destruct (is_prefix_of _ _)); cbn in Hv; intuition (subst; discriminate). }
  destruct (poke_status_meaning digest fits o input (flat_map view es)) as ([S0 _] & S3 & S5 & [E|[E|[E|E]]]).
  - now apply S0.
  - exfalso. pose proof (poke_end_iff digest fits o input (flat_map view es)) as [_ X]. rewrite He in X.
    destruct (pp_crash (prun (flat_map view es))) eqn:Ec; [apply (pi_crash _ _ _ _ _ _ I) in Ec; congruence|]. now discriminate X.
  - destruct (S3 E) as (_ & T & _). now apply NI in T.
  - destruct (S5 E) as (T & _). now apply NI in T.
Qed.
Lemma data_arrives es es' :
  Forall undisturbed es -> pp_sent (np_poke (run es)) = [d] -> matches_data digest i d = true ->
  let y := run (es ++ NpData :: es') in
  peek_status (pk_result (np_peek y)) = 0%Z /\ pk_out (np_peek y) = [if pk_payloadOnly po then input else data_wire sign d] /\
  peek_ended (np_peek y) = true /\ poke_status (np_poke y) = 0%Z /\ poke_ended (np_poke y) = true.
Proof.
  intros Hu Hs Hm y.
  assert (D1 : pk_result (np_peek (run (es ++ [NpData]))) = PkData /\ pk_pending (np_peek (run (es ++ [NpData]))) = false).
  { rewrite nrun_snoc. cbn [pp_step]. rewrite Hs, Hm. cbn [to_peek np_peek peek_step].
    destruct (pk_pending (np_peek (run es))) eqn:P; [split; reflexivity|].
    destruct (peek_open es Hu) as [E|E]; [rewrite E in P; discriminate|auto]. }
  destruct D1 as [D1 D2]. pose proof (ki_end _ _ (kinv_run (es ++ [NpData])) D2) as D3.
  assert (ST : forall l, np_peek (run ((es ++ [NpData]) ++ l)) = np_peek (run (es ++ [NpData]))).
  { induction l as [|e l IH] using rev_ind; [now rewrite app_nil_r|]. rewrite app_assoc, nrun_snoc.
    set (z := run ((es ++ [NpData]) ++ l)) in *. clearbody z.
    destruct e; cbn [pp_step]; unfold poke_gets.
    3,4: destruct (is_prefix_of _ _); exact IH.
    3: destruct (pp_sent (np_poke z)) as [|x ?]; [exact IH|destruct (matches_data digest i x); [|exact IH]].
    all: cbn [to_peek to_poke np_peek peek_step]; rewrite ?IH, ?D2, ?D3; reflexivity. }
  assert (Ey : y = run ((es ++ [NpData]) ++ es')) by (unfold y; now rewrite <- app_assoc).
  assert (Sy : np_poke y = np_poke (run es)) by (unfold y; apply sent_stays; rewrite Hs; discriminate).
  assert (P0 : peek_status (pk_result (np_peek y)) = 0%Z) by (now rewrite Ey, ST, D1).
  split; [exact P0|]. split; [now apply peek_prints_input in P0|]. split.
  - rewrite Ey, ST. unfold peek_ended. now rewrite D2, D3.
  - rewrite Sy. split; [apply sent_status|apply sent_ended]; rewrite Hs; discriminate.
Qed.
Lemma undisturbed_success e1 e2 e3 es' :
  pp_unsolicited o = false -> fits d = true ->
  asks_exactly i (pp_name o) (digest d) (pp_fresh o) ->
  Forall undisturbed (e1 ++ e2 ++ e3) ->
  let y := run (e1 ++ NpReg :: e2 ++ NpInterest :: e3 ++ NpData :: es') in
  peek_status (pk_result (np_peek y)) = 0%Z /\ pk_out (np_peek y) = [if pk_payloadOnly po then input else data_wire sign d] /\
  peek_ended (np_peek y) = true /\ poke_status (np_poke y) = 0%Z /\ poke_ended (np_poke y) = true.
Proof.
  intros Hu Hf Ha Hq. apply Forall_app in Hq as [Q1 Hq]. apply Forall_app in Hq as [Q2 Q3].
  pose proof (asks_prefix Ha) as HP. pose proof (proj2 (matches_iff HP) Ha) as HM.
  replace (e1 ++ NpReg :: e2 ++ NpInterest :: e3 ++ NpData :: es')
    with ((((e1 ++ NpReg :: e2) ++ [NpInterest]) ++ e3) ++ NpData :: es')
    by (rewrite <- !app_assoc; cbn [app]; now rewrite <- ?app_assoc).
  set (b := e1 ++ NpReg :: e2).
  assert (Qb : Forall undisturbed b) by (apply Forall_app; split; [exact Q1|constructor; [exact I|exact Q2]]).
  assert (Sb : pp_sent (np_poke (run (b ++ [NpInterest]))) = [d]).
  { destruct (poke_ended (np_poke (run b))) eqn:E.
    - pose proof (poke_open b Qb Hf E) as S. rewrite sent_stays; [exact S|rewrite S; discriminate].
    - rewrite poke_view, flat_map_app. cbn [flat_map view]. rewrite HP. cbn [app]. rewrite poke_view in E.
      destruct (poke_answers digest fits o input (flat_map view b) i) as [S _]; auto; [|now rewrite Hf in S].
      unfold b. rewrite flat_map_app. apply in_or_app. right. now left. }
  apply data_arrives; auto.
  - apply Forall_app. split; [apply Forall_app; split; [exact Qb|constructor; [exact I|constructor]]|exact Q3].
  - rewrite sent_stays; [exact Sb|rewrite Sb; discriminate].
Qed.
Lemma unsolicited_success es es' :
  pp_unsolicited o = true -> fits d = true -> matches_data digest i d = true -> Forall undisturbed es ->
  let y := run (es ++ NpData :: es') in
  peek_status (pk_result (np_peek y)) = 0%Z /\ pk_out (np_peek y) = [if pk_payloadOnly po then input else data_wire sign d] /\
  peek_ended (np_peek y) = true /\ poke_status (np_poke y) = 0%Z /\ poke_ended (np_poke y) = true.
Proof.
  intros Hu Hf Hm Hq. apply data_arrives; auto. rewrite poke_view.
  destruct (poke_unsolicited digest fits o input (flat_map view es) Hu) as [-> _]. now rewrite Hf.
Qed.
End P.

(** ** application parameters *)
Lemma put_digest_in n c : In c (put_params_digest n c).
Proof.
  induction n as [|x n IH]; cbn; [now left|]. destruct (is_params_digest x); [now left|right; exact IH].
Qed.
Lemma params_never digest sha256 r fi o input :
  create_interest sha256 r = Some fi -> pr_params r <> None ->
  (forall c, In c (pp_name o) -> c_type c <> 2%N) ->
  ~ asks_exactly (fi_interest fi) (pp_name o) (digest (poke_data o input)) (pp_fresh o).
Proof.
  unfold create_interest. intros H Hp Hn [Ha _]. destruct (Nat.ltb _ _); [discriminate|]. destruct (pr_params r) as [p|]; [|congruence].
  injection H as <-. cbn [fi_interest i_name] in Ha. set (c := Comp TParametersDigest _) in *. pose proof (put_digest_in (pr_name r) c) as Hin.
  destruct Ha as [Ha|[Ha Hc]]; rewrite Ha in Hin.
  - now apply (Hn c Hin).
  - apply in_app_or in Hin as [Hin|[Hin|[]]]; [now apply (Hn c Hin)|]. rewrite Hin in Hc. discriminate.
Qed.
Lemma plain_interest sha256 r :
  pr_params r = None -> (forall c, In c (pr_name r) -> c_type c <> 2%N) ->
  exists fi, create_interest sha256 r = Some fi /\ i_name (fi_interest fi) = pr_name r /\
             i_canBePrefix (fi_interest fi) = pr_canBePrefix r /\ i_mustBeFresh (fi_interest fi) = pr_mustBeFresh r.
Proof.
  intros Hp Hn. unfold create_interest. rewrite Hp.
  assert (E : filter is_params_digest (pr_name r) = []).
  { induction (pr_name r) as [|x n IH]; [reflexivity|]. cbn. unfold is_params_digest at 1. destruct (N.eqb_spec (c_type x) TParametersDigest) as [E|E].
    - exfalso. apply (Hn x); [now left|exact E].
    - apply IH. intros; apply Hn; now right. }
  rewrite E. cbn. eauto.
Qed.
Lemma shorter_never digest sign i po o input x rest es :
  pp_unsolicited o = false -> pp_name o = i_name i ++ x :: rest -> (forall e, In e es -> ~ by_others e) ->
  let y := pp_run digest sign i po o input es in
  pp_sent (np_poke y) = [] /\ peek_status (pk_result (np_peek y)) <> 0%Z.
Proof.
  intros Hu Hn Ho. apply never_answered; auto. intros [[H|[H _]] _]; rewrite Hn in H; apply (f_equal (@length _)) in H; rewrite ?app_length in H; cbn in H; rewrite ?app_length in H; lia.
Qed.
Lemma params_unanswered digest sign sha256 r fi po o input es :
  create_interest sha256 r = Some fi -> pr_params r <> None ->
  pp_unsolicited o = false -> (forall c, In c (pp_name o) -> c_type c <> 2%N) -> (forall e, In e es -> ~ by_others e) ->
  let y := pp_run digest sign (fi_interest fi) po o input es in
  pp_sent (np_poke y) = [] /\ peek_status (pk_result (np_peek y)) <> 0%Z.
Proof. intros Hc Hp Hu Hn Ho. apply never_answered; auto. eapply params_never; eauto. Qed.
