From Verif Require Import Base BaseFacts TlvModel TlvProofs PingModel PeekModel PeekProofs PeekPokeModel PeekPokeSpec PeekPokeProofs PeekWireModel PeekWireSpec PeekWireProofs
  DumpModel DissectSpec PeekRunModel PeekRunSpec PeekRunProofs PairRunSpec PairRunProofs ExchangeRunSpec.
From Coq Require Import String List ZArith Lia.
Import ListNotations.
Local Open Scope Z_scope.
Local Open Scope list_scope.

Section Both.
(** ndnpeek *)
Variable sha256 : list N -> list N.
Variable nonce : list N.
Variable interest_text : full_interest -> text.
Variable wire_name : list N -> text.
Variable usage version : text.
Variable base64 : text -> text + list N.
Variable open_file : text -> text + (text + list N).
Variable face_error : option text.
Variable create_error send_error : text.
(** ndnpoke *)
Variable digest : packet -> component.
Variable sign : packet -> list N * list N.
Variable poke_interest_text : interest -> text.
Variable data_text : packet -> text.
Variable poke_usage poke_version : text.
Variable parse_name : text -> text + name.
Variable signing_error : text -> option text.
Variable start_error : option text.
Variable put_error : text.
Variable put_later : bool.
Notation ndnpeek := (peek_program sha256 nonce interest_text wire_name usage version base64 open_file face_error create_error send_error).
Notation ndnpoke := (poke_program digest sign poke_interest_text data_text poke_usage poke_version parse_name signing_error start_error put_error put_later).
Notation publishes := (poke_publishes parse_name signing_error).

Lemma published_is b input d : publishes b input d -> exists o, d = poke_data o input /\ pp_name o = k_name d /\ pp_fresh o = k_fresh d.
Proof.
  intros [t n c H1 H2 H3 H4 H5]. exists (PokeOpts (n ++ [c]) (oa_fresh b) (oa_final b) false false). unfold poke_data. cbn. rewrite last_snoc.
  destruct (oa_final b); auto.
Qed.
Lemma published_content b input d : publishes b input d -> data_fits sign d = true -> content_of_wire (data_wire sign d) = input.
Proof. intros P F. destruct (published_is _ _ _ P) as (o & -> & _). now apply wire_content. Qed.

Lemma puts_sent b d sent err st : poke_puts sign data_text put_error put_later b d sent err st ->
  forall x, In x sent -> x = d /\ sent = [d] /\ data_fits sign d = true /\ st = Some 0.
Proof. intros [F|F] x I; [|destruct I]. destruct I as [<-|[]]. auto. Qed.
Lemma serves_sent b d es sent err st : poke_serves digest sign poke_interest_text data_text put_error put_later b d es sent err st ->
  forall x, In x sent -> x = d /\ sent = [d] /\ data_fits sign d = true /\ st = Some 0.
Proof. induction 1; intros x I; try (destruct I; fail); eauto. eapply puts_sent; eauto. Qed.
Lemma registers_sent b d es sent err st : poke_registers digest sign poke_interest_text data_text put_error put_later b d es sent err st ->
  forall x, In x sent -> x = d /\ sent = [d] /\ data_fits sign d = true /\ st = Some 0.
Proof. induction 1; intros x I; try (destruct I; fail); eauto. eapply serves_sent; eauto. Qed.
Lemma poke_sent cmd input pes x : In x (po_sent (ndnpoke cmd input pes)) ->
  exists b, cmd = inr b /\ publishes b input x /\ po_sent (ndnpoke cmd input pes) = [x] /\ data_fits sign x = true /\ rr_status (po_run (ndnpoke cmd input pes)) = Some 0.
Proof.
  pose proof (poke_prog_behaves digest sign poke_interest_text data_text poke_usage poke_version parse_name signing_error start_error put_error put_later input pes cmd _ eq_refl) as B.
  set (o := ndnpoke cmd input pes) in *. clearbody o.
  inversion B; subst; cbn [po_sent po_run rr_status]; intros I; try (destruct I; fail).
  - match goal with Pu : poke_puts _ _ _ _ _ _ _ _ _ |- _ => destruct (puts_sent _ _ _ _ _ Pu x I) as (-> & E1 & E2 & E3) end. eexists. eauto.
  - match goal with Rg : poke_registers _ _ _ _ _ _ _ _ _ _ _ _ |- _ => destruct (registers_sent _ _ _ _ _ _ Rg x I) as (-> & E1 & E2 & E3) end. eexists. eauto.
Qed.

Lemma receives_out a t0 es out err st : peek_receives wire_name a t0 es out err st ->
  (exists t w, In (t, KEvent (PeData w)) es /\ out = (if ka_payload a then content_of_wire w else w) /\ st = Some 0) \/
  (exists t h, In (t, KEvent (PeNack h)) es /\ st = Some 4) \/ (out = [] /\ st <> Some 0 /\ st <> Some 4).
Proof.
  induction 1 as [|t w es ms E|t h es ms E|t es|t w es E|t es out err st E R IH|t what es].
  - right. right. split; [reflexivity|split; discriminate].
  - left. exists t, w. split; [now left|auto].
  - right. left. exists t, h. split; [now left|auto].
  - right. right. split; [reflexivity|split; discriminate].
  - right. right. split; [reflexivity|split; discriminate].
  - destruct IH as [(t1 & w & I & H)|[(t1 & h & I & H)|IH]]; [left; exists t1, w|right; left; exists t1, h|now right; right]; (split; [now right|exact H]).
  - right. right. split; [reflexivity|split; discriminate].
Qed.

(** what ndnpeek writes is what ndnpoke was given *)
Theorem exchange_right a t0 es cmd input pes : let r := ndnpeek (inr a) t0 es in let p := ndnpoke cmd input pes in
  Forall (fun e => t0 <= fst e) es -> only_published sign (po_sent p) es ->
  ka_help a = false -> ka_version a = false ->
  (rr_status r = Some 0 -> exists b d, cmd = inr b /\ publishes b input d /\ po_sent p = [d] /\ rr_status (po_run p) = Some 0 /\
     rr_stdout r = if ka_payload a then input else data_wire sign d) /\
  (rr_status r <> Some 0 -> rr_status r <> Some 4 -> rr_stdout r = []).
Proof.
  intros r p T O Hh Hv.
  pose proof (peek_prog_behaves sha256 nonce interest_text wire_name usage version base64 open_file face_error create_error send_error t0 es (inr a) r T eq_refl) as B.
  clearbody r. inversion B as [|? X|? ? X| | | | |? rq f pk out err st ? ? ? ? ? ? R]; subst; cbn [rr_status rr_stdout]; try congruence; try (split; [discriminate|reflexivity]).
  destruct (receives_out _ _ _ _ _ _ R) as [(t & w & I & -> & ->)|[(t & h & I & ->)|(-> & N0 & N4)]].
  - split; [intros _|congruence]. destruct (O t w I) as (d & Id & ->). destruct (poke_sent _ _ _ _ Id) as (b & Ec & P & E1 & E2 & E3).
    exists b, d. repeat (split; [assumption|]). destruct (ka_payload a); [exact (published_content _ _ _ P E2)|reflexivity].
  - split; [discriminate|congruence].
  - split; [congruence|reflexivity].
Qed.

(** ** Success *)
Lemma poke_answers b d e1 e2 e3 i : Forall early e1 -> Forall (harmless b) e2 -> data_fits sign d = true ->
  is_prefix_of (k_name d) (i_name i) = true -> matches_data digest i d = true ->
  exists err, poke_registers digest sign poke_interest_text data_text put_error put_later b d (e1 ++ ORegSuccess :: e2 ++ OInterest i :: e3) [d] err (Some 0).
Proof.
  intros E1 E2 F Hp Hm.
  assert (S : exists err, poke_serves digest sign poke_interest_text data_text put_error put_later b d (e2 ++ OInterest i :: e3) [d] err (Some 0)).
  { induction E2 as [|e l He E2 [err IH]]; [eexists; apply Os_answer; [exact Hp|exact Hm|now apply Ou_sent]|].
    cbn [app]. destruct e as [|reason|j| |what]; cbn in He; try contradiction.
    - eexists. apply Os_success. exact IH.
    - eexists. apply Os_failure. exact IH.
    - destruct (is_prefix_of (k_name d) (i_name j)) eqn:Q; [|eexists; apply Os_foreign; eauto].
      destruct (matches_data digest j d) eqn:M; [eexists; apply Os_answer; [exact Q|exact M|now apply Ou_sent]|]. eexists. apply Os_other; eauto.
    - eexists. apply Os_no_timer; eauto. }
  induction E1 as [|e l He E1 [err IH]]; [destruct S as [err S]; eexists; apply Or_success; exact S|].
  cbn [app]. destruct e; cbn in He; try contradiction; eexists; [apply Or_interest|apply Or_timer]; exact IH.
Qed.

Lemma sent_interest r f w i : create_interest sha256 r = Some f -> peek_send sha256 nonce r = Some w -> Forall comp_ok (i_name (fi_interest f)) ->
  carries w i -> i = fi_interest f.
Proof.
  unfold peek_send. intros Ef. rewrite Ef. destruct (Nat.leb_spec (length (interest_wire nonce f)) (8 * 1100)) as [L|]; [|discriminate]. intros [= <-] Ok.
  intros (es & W & Oe & H7 & Ci & H33 & H18). set (fs := interest_fields nonce f) in *.
  assert (W' : interest_of (interest_wire nonce f) fs) by reflexivity.
  destruct (es_ok (fun x => x) _ fs W' L (types_in _ _)) as [Ok' E5]. unfold interest_of in W, W'.
  assert (E5' : elem_ok 5 (encode_all es)).
  { split; [unfold type_ok; lia|]. apply short_u64. etransitivity; [|exact L]. rewrite W. unfold tlv. rewrite !app_length. lia. }
  rewrite W' in W. apply tlv_inj in W; auto. destruct W as [_ W]. apply encode_all_inj in W; auto. subst es.
  destruct (fields_spec (fun x => x) nonce f fs eq_refl) as (F7 & F33 & F18 & _).
  assert (Nm : i_name i = i_name (fi_interest f)) by (apply comps_inj; [exact Ci|exact Ok|exact (has_eq _ _ _ _ H7 F7)]).
  assert (Fl : forall t x y, flag fs t x -> flag fs t y -> x = y).
  { intros t [] [] X Y; try reflexivity; exfalso; [exact (lacks_has _ _ _ Y X)|exact (lacks_has _ _ _ X Y)]. }
  destruct i as [n1 c1 m1], (fi_interest f) as [n2 c2 m2]. cbn in *. f_equal; [exact Nm|exact (Fl _ _ _ H33 F33)|exact (Fl _ _ _ H18 F18)].
Qed.

Theorem exchange_succeeds a rq w t0 quiet t es b input d e1 i e2 e3 :
  let p := ndnpoke (inr b) input (e1 ++ ORegSuccess :: e2 ++ OInterest i :: e3) in
  let r := ndnpeek (inr a) t0 (quiet ++ (t, KEvent (PeData (data_wire sign d))) :: es) in
  (* ndnpoke *)
  oa_help b = false -> oa_version b = false -> oa_unsolicited b = false -> start_error = None -> publishes b input d -> data_fits sign d = true ->
  Forall comp_ok (k_name d) -> (forall c, In c (k_name d) -> c_type c <> 2%N) ->
  (* ndnpeek *)
  ka_help a = false -> ka_version a = false -> face_error = None -> peek_asks base64 open_file a rq -> asks_for a d (digest d) ->
  peek_send sha256 nonce rq = Some w ->
  (* the network *)
  carries w i -> Forall early e1 -> Forall (harmless b) e2 -> Forall (uneventful a) quiet -> t0 <= t ->
  po_sent p = [d] /\ rr_status (po_run p) = Some 0 /\
  rr_status r = Some 0 /\ rr_stdout r = if ka_payload a then input else data_wire sign d.
Proof.
  intros p r B1 B2 B3 B4 P F Ok Nd A1 A2 A3 Rq As Sd C E1 E2 Q T.
  destruct As as [An Af [Ap1 Ap2]]. destruct Rq as [n pm h R1 R2 R3 R4 R5]. set (rq := PeekRequest _ _ _ _ _ _ _) in *.
  assert (Pm : pm = None) by (inversion R5; congruence).
  assert (Nm : n = k_name d \/ (n = k_name d ++ [digest d] /\ c_type (digest d) = 1%N /\ comp_ok (digest d))).
  { destruct An as [E|(E & E')]; rewrite R1 in E; injection E as ->; auto. }
  assert (Nt : forall c, In c n -> c_type c <> 2%N).
  { intros c I. destruct Nm as [->|(-> & Et & _)]; [auto|]. apply in_app_or in I as [I|[<-|[]]]; [auto|]. rewrite Et. discriminate. }
  assert (Nk : Forall comp_ok n).
  { destruct Nm as [->|(-> & _ & Ec)]; [exact Ok|]. apply Forall_app. split; [exact Ok|]. now constructor. }
  destruct (plain_interest sha256 rq Pm Nt) as (f & Ef & En & _ & Em).
  assert (Ei : i = fi_interest f) by (apply (sent_interest rq f w i Ef Sd); [rewrite En; exact Nk|exact C]).
  destruct (published_is _ _ _ P) as (o & Ed & Eo & Efr).
  assert (Ax : asks_exactly i (pp_name o) (digest (poke_data o input)) (pp_fresh o)).
  { rewrite <- Ed, Eo, Efr. split; [|rewrite Ei, Em; exact Af]. rewrite Ei, En. destruct Nm as [->|(-> & Et & _)]; auto. }
  pose proof (asks_prefix digest i o input Ax) as Px. assert (Mx : matches_data digest i d = true) by (rewrite Ed; apply matches_iff; [exact Px|exact Ax]).
  rewrite Eo in Px.
  destruct (poke_answers b d e1 e2 e3 i E1 E2 F Px Mx) as (err & Rg).
  assert (Ep : p = PokeOutcome [d] (RunResult [] err (Some 0))).
  { apply poke_behaves_prog. eapply Ob_serves; eauto. }
  rewrite Ep. split; [reflexivity|]. split; [reflexivity|].
  assert (Rc : exists err, peek_receives wire_name a t0 (quiet ++ (t, KEvent (PeData (data_wire sign d))) :: es)
                 (if ka_payload a then content_of_wire (data_wire sign d) else data_wire sign d) err (Some 0)).
  { clear - Q T sha256 wire_name base64 open_file create_error. induction Q as [|[tq eq] l [Hq1 Hq2] Q [er IH]].
    - destruct (elapsed_exists sha256 wire_name base64 open_file create_error t0 t T) as (ms & El). eexists. apply Kr_data. exact El.
    - cbn in Hq2. subst eq. exists er. apply Kr_no_timer; assumption. }
  destruct Rc as (er & Rc).
  assert (Er : r = RunResult (if ka_payload a then content_of_wire (data_wire sign d) else data_wire sign d)
                   (if_verbose (ka_verbose a) [str "INTEREST: " ++ interest_text f] ++ er) (Some 0)).
  { apply peek_behaves_prog. apply (Kb_sent _ _ _ _ _ _ _ _ _ _ _ _ _ a rq f w); auto. constructor; auto. }
  rewrite Er. split; [reflexivity|]. cbn [rr_stdout]. destruct (ka_payload a); [exact (published_content _ _ _ P F)|reflexivity].
Qed.
End Both.
