(** ndndump as a program does what [behaves] says. *)
From Verif Require Import Base TlvModel TlvProofs PingModel DumpModel DumpSpec DumpRunModel DumpRunSpec.
From Coq Require Import String List Lia.
Import ListNotations.
Local Open Scope nat_scope.
Local Open Scope list_scope.

Lemma spaced_join w ws : spaced (w :: ws) (join_args (w :: ws)).
Proof.
  revert w. induction ws as [|v ws IH]; intros w; [constructor|].
  change (join_args (w :: v :: ws)) with (w ++ str " " ++ join_args (v :: ws)). constructor. apply IH.
Qed.
Lemma spaced_fun l x : spaced l x -> x = join_args l.
Proof.
  induction 1 as [w|w ws t H IH]; [reflexivity|]. rewrite IH. destruct ws; [inversion H|reflexivity].
Qed.
Definition expr (l : list text) : text := match l with [] => getDefaultPcapFilter | _ => join_args l end.
Lemma expression_expr l : expression l (expr l).
Proof. destruct l; [exact Ex_default|constructor; apply spaced_join]. Qed.
Lemma expression_fun l x : expression l x -> x = expr l.
Proof. intros []; [reflexivity|]. rewrite (spaced_fun _ _ H). reflexivity. Qed.

Section Loop.
Variable E : env.
Variable o : dump_opts.
Lemma loop_prints (f : packet -> bool) (sel : packet -> Prop) (Hf : forall p, f p = true <-> sel p) ps ls :
  pcap_loop E o f ps = Fine ls <-> prints E o sel ps ls.
Proof.
  revert ls. induction ps as [|p ps IH]; intros ls; split; intros H.
  - injection H as <-. constructor.
  - inversion H. reflexivity.
  - cbn [pcap_loop] in H. destruct (f p) eqn:F.
    + destruct (printPacket E o (p_cap p) (p_len p) (p_sec p) (p_usec p)) as [l| |] eqn:L; [|discriminate|discriminate].
      cbn [bind] in H. destruct (pcap_loop E o f ps) as [ls'| |] eqn:R; [|discriminate|discriminate].
      cbn [bind] in H. apply Hf in F. assert (Q := proj1 (IH ls') eq_refl).
      destruct l as [l|]; injection H as <-; [eapply Pr_line|eapply Pr_hidden]; eauto.
    + apply Pr_skip; [intros C; apply Hf in C; congruence|]. apply IH. exact H.
  - cbn [pcap_loop]. inversion H as [|? ? ? N Q|? ? ? S L Q|? ? ? ? S L Q]; subst.
    + destruct (f p) eqn:F; [apply Hf in F; contradiction|]. apply IH, Q.
    + apply Hf in S. rewrite S, L. cbn [bind]. apply IH in Q. rewrite Q. reflexivity.
    + apply Hf in S. rewrite S, L. cbn [bind]. apply IH in Q. rewrite Q. reflexivity.
Qed.
End Loop.

Section Program.
Variable E : env.
Variable P : pcap.
Variables usage version : list text.
Variable regex : text -> text + (text -> bool).
Notation prog := (dump_program E P usage version regex).
Notation behaves := (behaves E P usage version regex).

Definition config (a : arguments) (f : option (text -> bool)) : settings :=
  Settings (match a_interface a with Some i => i | None => [] end)
           (match a_read a with Some r => r | None => [] end)
           (expr (a_pcap a)) f (negb (a_no_promiscuous a)) (negb (a_no_timestamp a)) (a_verbose a).

Lemma accepted_prog a f : accepted regex a f -> prog (inr a) = main_run E P (config a f).
Proof.
  intros [H V C F|r f' H V C F R]; cbn [dump_program]; rewrite H, V, F; unfold config, expr.
  - destruct C as [->| ->]; destruct (a_interface a); try destruct (a_read a); destruct (a_pcap a); reflexivity.
  - rewrite R. destruct C as [->| ->]; destruct (a_interface a); try destruct (a_read a); destruct (a_pcap a); reflexivity.
Qed.

Lemma is_empty_nil t : is_empty t = true <-> t = [].
Proof. destruct t; cbn; split; congruence. Qed.
Lemma absent_nil o : absent o <-> (match o with Some i => i | None => [] end) = [].
Proof. unfold absent. destruct o as [i|]; split; intros H; [destruct H; congruence|subst; auto|reflexivity|auto]. Qed.

(** what run does, as a function of the source *)
Definition after (s : settings) (action : text) (r : text + capture) : output * ending :=
  match r with
  | inl m => (silent, Threw m)
  | inr c => run_capture E s action c
  end.

Lemma source_run a f action r : a_interface a = None \/ a_read a = None ->
  source P a action r -> run E P (config a f) = after (config a f) action r.
Proof.
  intros C S. unfold run, config; cbn [s_file s_interface].
  destruct S as [i [Hi Ni]|fl Ai [Hf Nf]|d ds Ai Ar D Nd|Ai Ar D|e Ai Ar D].
  - destruct C as [C|C]; [congruence|]. rewrite Hi, C. cbn [is_empty andb].
    destruct i as [|b i]; [congruence|]. cbn. destruct (pc_live P (b :: i) _); reflexivity.
  - apply absent_nil in Ai. rewrite Ai, Hf. destruct fl as [|b fl]; [congruence|]. cbn.
    destruct (pc_file P (b :: fl)); reflexivity.
  - apply absent_nil in Ai, Ar. rewrite Ai, Ar. cbn. rewrite D. unfold run_open.
    destruct d as [|b d]; [congruence|]. cbn. destruct (pc_live P (b :: d) _); reflexivity.
  - apply absent_nil in Ai, Ar. rewrite Ai, Ar. cbn. rewrite D. reflexivity.
  - apply absent_nil in Ai, Ar. rewrite Ai, Ar. cbn. rewrite D. reflexivity.
Qed.

Lemma source_total a (named : forall ds, pc_devices P = inr ds -> Forall (fun d => d <> []) ds) : exists action r, source P a action r.
Proof.
  destruct (match a_interface a with Some i => i | None => [] end) as [|b i] eqn:I.
  - apply absent_nil in I. destruct (match a_read a with Some i => i | None => [] end) as [|b r] eqn:R.
    + apply absent_nil in R. destruct (pc_devices P) as [e|[|d ds]] eqn:D.
      * eexists _, _. eapply So_error; eassumption.
      * eexists _, _. apply So_none; assumption.
      * eexists _, _. eapply So_first; [assumption|assumption|exact D|]. exact (Forall_inv (named _ eq_refl)).
    + eexists _, _. apply (So_file P a (b :: r)); [assumption|]. split; [|congruence].
      destruct (a_read a); [|discriminate]. rewrite R. reflexivity.
  - eexists _, _. apply (So_interface P a (b :: i)). split; [|congruence].
    destruct (a_interface a); [|discriminate]. rewrite I. reflexivity.
Qed.

Lemma accepted_src a f action r : accepted regex a f -> source P a action r ->
  prog (inr a) = let '(out, e) := after (config a f) action r in
    match e with
    | Returned => (out, Ended 0)
    | Threw e => (add out (Output [] [str "ERROR: " ++ e]), Ended 1)
    | Unfinished => (out, Running)
    | Undefined => (out, Crash)
    end.
Proof.
  intros A S. rewrite (accepted_prog a f A). unfold main_run. rewrite (source_run a f action r); [reflexivity| |exact S].
  destruct A; assumption.
Qed.

Lemma in_use_loop c a f l x v sel ls : expression (a_pcap a) x -> in_use c (a_verbose a) x v sel ->
  prints E (DumpOpts l f (negb (a_no_timestamp a))) sel (c_packets c) ls ->
  run_filter E (config a f) (DumpOpts l f (negb (a_no_timestamp a))) c =
  (Output ls v, match c_end c with
                | EndOfFile => Returned
                | LoopError e => Threw (str "pcap_loop: " ++ e)
                | StillRunning => Unfinished
                end).
Proof.
  intros X U Q. apply expression_fun in X. unfold run_filter, config. cbn [s_pcap s_verbose]. rewrite <- X.
  destruct U as [|x g N C].
  - cbn [is_empty]. unfold run_loop.
    rewrite (proj2 (loop_prints E _ (fun _ => true) (fun _ => True) ltac:(tauto) _ _) Q). reflexivity.
  - destruct x as [|b x]; [congruence|]. cbn [is_empty]. rewrite C. unfold run_loop.
    rewrite (proj2 (loop_prints E _ g (fun p => g p = true) ltac:(tauto) _ _) Q).
    unfold add. destruct (a_verbose a); cbn [silent out_stdout out_stderr app]; rewrite ?app_nil_r; reflexivity.
Qed.

Theorem behaves_prog cmd out err st : behaves cmd out err st -> prog cmd = (Output out err, st).
Proof.
  intros H. destruct H as [m|a i r H V I R|a r m H V C F R|a H|a H V|a f action m A S|a f action c A S L|a f action c l x v m A S L X N
    |a f action c l x v sel ls A S L X U Q D|a f action c l x v sel ls A S L X U Q D|a f action c l x v sel ls m A S L X U Q D].
  - reflexivity.
  - cbn [dump_program]. rewrite H, V, I, R. reflexivity.
  - cbn [dump_program]. rewrite H, V, F, R. destruct C as [->| ->]; [reflexivity|]. destruct (a_interface a); reflexivity.
  - cbn [dump_program]. rewrite H. reflexivity.
  - cbn [dump_program]. rewrite H, V. reflexivity.
  - rewrite (accepted_src a f action (inl m) A S). reflexivity.
  - rewrite (accepted_src a f action (inr c) A S). cbn [after]. unfold run_capture. rewrite L. reflexivity.
  - rewrite (accepted_src a f action (inr c) A S). cbn [after]. unfold run_capture. rewrite L.
    apply expression_fun in X. unfold run_filter. cbn [s_pcap config s_verbose]. rewrite <- X.
    destruct N as [e N C|e N C]; destruct x as [|b x]; try congruence; cbn [is_empty]; rewrite C;
      unfold add; destruct (a_verbose a); reflexivity.
  - rewrite (accepted_src a f action (inr c) A S). cbn [after]. unfold run_capture. rewrite L. cbn [config s_filter s_timestamp].
    rewrite (in_use_loop c a f l x v sel ls X U Q), D. reflexivity.
  - rewrite (accepted_src a f action (inr c) A S). cbn [after]. unfold run_capture. rewrite L. cbn [config s_filter s_timestamp].
    rewrite (in_use_loop c a f l x v sel ls X U Q), D. reflexivity.
  - rewrite (accepted_src a f action (inr c) A S). cbn [after]. unfold run_capture. rewrite L. cbn [config s_filter s_timestamp].
    rewrite (in_use_loop c a f l x v sel ls X U Q), D. unfold add. cbn. rewrite app_nil_r. reflexivity.
Qed.

Lemma accepted_or a : (exists f, accepted regex a f) \/ exists out err st, behaves (inr a) out err st.
Proof.
  destruct (a_help a) eqn:H; [right; eexists _, _, _; apply Be_help; assumption|].
  destruct (a_version a) eqn:V; [right; eexists _, _, _; apply Be_version; assumption|].
  destruct (a_interface a) as [i|] eqn:I.
  - destruct (a_read a) as [r|] eqn:R; [right; eexists _, _, _; eapply Be_conflict; eassumption|].
    destruct (a_filter a) as [r|] eqn:F; [|left; eexists; apply Ac_all; auto].
    destruct (regex r) as [m|g] eqn:G; [right; eexists _, _, _; eapply Be_regex; eauto|left; eexists; eapply Ac_some; eauto].
  - destruct (a_filter a) as [r|] eqn:F; [|left; eexists; apply Ac_all; auto].
    destruct (regex r) as [m|g] eqn:G; [right; eexists _, _, _; eapply Be_regex; eauto|left; eexists; eapply Ac_some; eauto].
Qed.

Theorem prog_behaves cmd out err st : (forall ds, pc_devices P = inr ds -> Forall (fun d => d <> []) ds) -> prog cmd = (Output out err, st) -> st <> Crash -> behaves cmd out err st.
Proof.
  intros named Hp Hc.
  assert (exists out err st, behaves cmd out err st) as (out' & err' & st' & B).
  2:{ assert (Hb := B). apply behaves_prog in B. rewrite Hp in B. injection B as -> -> ->. exact Hb. }
  destruct cmd as [m|a]; [eexists _, _, _; constructor|].
  destruct (accepted_or a) as [(f & A)|B]; [|exact B].
  destruct (source_total a named) as (action & r & S).
  destruct r as [m|c]; [eexists _, _, _; eapply Be_closed; eassumption|].
  destruct (d_link (c_datalink c)) as [l|] eqn:L; [|eexists _, _, _; eapply Be_link; eassumption].
  assert (X := expression_expr (a_pcap a)).
  assert (Hd : forall sel v, in_use c (a_verbose a) (expr (a_pcap a)) v sel ->
      (exists ls, prints E (DumpOpts l f (negb (a_no_timestamp a))) sel (c_packets c) ls) ->
      exists out err st, behaves (inr a) out err st).
  { intros sel v U (ls & Q). destruct (c_end c) as [|m|] eqn:D; eexists _, _, _.
    - eapply Be_done; eassumption.
    - eapply Be_broken; eassumption.
    - eapply Be_running; eassumption. }
  rewrite (accepted_src a f action (inr c) A S) in Hp. cbn [after] in Hp. unfold run_capture in Hp. rewrite L in Hp.
  unfold run_filter in Hp. cbn [config s_pcap s_filter s_timestamp s_verbose] in Hp.
  destruct (expr (a_pcap a)) as [|b x] eqn:Ex.
  - cbn [is_empty] in Hp. unfold run_loop in Hp.
    destruct (pcap_loop E _ _ (c_packets c)) as [ls| |] eqn:Q; try (cbn in Hp; congruence).
    eapply Hd; [constructor|]. exists ls. eapply (loop_prints E _ (fun _ => true)); [tauto|exact Q].
  - cbn [is_empty] in Hp. destruct (c_compile c (b :: x)) as [m|m|g] eqn:C.
    + eexists _, _, _. eapply Be_expression; eauto. eapply Nf_compile; [congruence|exact C].
    + eexists _, _, _. eapply Be_expression; eauto. eapply Nf_set; [congruence|exact C].
    + unfold run_loop in Hp.
      destruct (pcap_loop E _ _ (c_packets c)) as [ls| |] eqn:Q; try (cbn in Hp; congruence).
      eapply Hd; [eapply Us_some; [congruence|exact C]|]. exists ls. eapply (loop_prints E _ g); [tauto|exact Q].
Qed.
End Program.
