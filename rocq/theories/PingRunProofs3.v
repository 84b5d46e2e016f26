(** Proofs about ndnping as a program: the options, and consequences. *)
From Verif Require Import Base TlvModel PingModel PingSpec PingProofs PingStatsModel PingStatsSpec PeekModel PeekPokeModel PeekWireModel
  DumpModel DissectSpec PingTextModel PingTextSpec PingTextProofs PingTextProofs2 PeekRunModel PingRunModel PingRunSpec PingRunProofs PingRunProofs2.
From Coq Require Import String List Lia Permutation.
Import ListNotations.
Local Open Scope Z_scope.
Local Open Scope list_scope.
Local Opaque str unlines to_string.

Lemma alnum_iff c : alnum c = true <-> letter_or_digit c.
Proof. unfold alnum, letter_or_digit. rewrite !orb_true_iff, !andb_true_iff, !N.leb_le. tauto. Qed.
Lemma forallb_alnum i : forallb alnum i = true <-> Forall letter_or_digit i.
Proof. rewrite forallb_forall, Forall_forall. split; intros H x Hx; apply alnum_iff; auto. Qed.

Section Program.
Variable nonce : N -> list N.
Variable parse_name : text -> option name.
Variable uri : name -> text.
Variable usage version : text.
Variable stamp : Z -> text.
Variable word64 : N.
Variable face_error : bool.
Variable send_error : N -> text.
Hypothesis Hword : (word64 < 2 ^ 64)%N.

Lemma ping_program_spec cmd t0 es : plausible_run t0 es ->
  (forall a k, cmd = inr a -> ga_start a = Some k -> (k < 2 ^ 64)%N) ->
  ping_behaves nonce parse_name uri usage version stamp word64 face_error send_error t0 es cmd
    (ping_program nonce parse_name uri usage version stamp word64 face_error send_error cmd t0 es).
Proof.
  intros Hpl Hst. unfold ping_program.
  assert (Bad : forall m, str "ERROR: " ++ m ++ nl = unlines [str "ERROR: " ++ m]) by (intros m; now rewrite unlines1, <- app_assoc).
  destruct cmd as [e|a]; [rewrite Bad; apply Gb_wrong|].
  destruct (ga_help a) eqn:Eh; [now apply Gb_help|]. destruct (ga_version a) eqn:Ev; [now apply Gb_version|].
  destruct (ga_prefix a) as [p|] eqn:Ep; [|rewrite Bad; apply Gb_complaint; auto; now apply Gc_prefix].
  destruct (parse_name p) as [n|] eqn:En; [|now apply (Gb_bad_name _ _ _ _ _ _ _ _ _ _ _ _ p)].
  destruct (Z.ltb_spec (ga_interval a) 1) as [Hi|Hi]; [rewrite Bad; apply Gb_complaint; auto; now apply (Gc_interval _ _ p n)|].
  destruct (match ga_count a with Some c => c <=? 0 | None => false end) eqn:Ec.
  { destruct (ga_count a) as [c|] eqn:Ec'; [|discriminate]. apply Z.leb_le in Ec. rewrite Bad. apply Gb_complaint; auto. now apply (Gc_count _ _ p n c). }
  assert (Hc : forall c, ga_count a = Some c -> 1 <= c) by (intros c E; rewrite E in Ec; apply Z.leb_gt in Ec; lia).
  destruct (match ga_identifier a with Some i => match i with [] => true | _ => negb (forallb alnum i) end | None => false end) eqn:Ei.
  { destruct (ga_identifier a) as [i|] eqn:Ei'; [|discriminate]. rewrite Bad. apply Gb_complaint; auto. apply (Gc_identifier _ _ p n i); auto.
    destruct i as [|x i]; [now left|]. right. rewrite <- forallb_alnum. apply negb_true_iff in Ei. congruence. }
  assert (Acc : ping_accepts parse_name a n).
  { split; eauto. intros i E. rewrite E in Ei. destruct i as [|x i]; [discriminate|]. split; [discriminate|].
    apply forallb_alnum. now apply negb_false_iff in Ei. }
  unfold ping_go. destruct face_error eqn:Ef; [now apply (Gb_no_face _ _ _ _ _ _ _ _ _ _ _ _ n)|].
  destruct (_ || _) eqn:Eb.
  { apply (Gb_too_long _ _ _ _ _ _ _ _ _ _ _ _ n); auto. unfold clock_fits, ms. apply orb_true_iff in Eb. rewrite !Z.ltb_lt in Eb. lia. }
  apply orb_false_iff in Eb as [Eb1 Eb2]. apply Z.ltb_ge in Eb1, Eb2.
  apply (Gb_run _ _ _ _ _ _ _ _ _ _ _ _ n); auto; try (unfold clock_fits, ms; lia).
  apply (ping_go_spec nonce stamp send_error a n (uri n)); auto.
  - destruct (ga_start a) as [k|] eqn:Es; [now apply (Hst a k)|exact Hword].
  - intros i E. exact (proj1 (gk_identifier _ _ _ Acc i E)).
Qed.
End Program.

(** * Consequences of the notes *)
Section Notes.
Variable nonce : N -> list N.
Variable a : ping_args.
Variable prefix : name.
Variable first : N.
Notation pinging := (PingRunSpec.pinging nonce a prefix first).

Lemma sent_map t new : sent (map (fun n => (t, n)) new) = flat_map (fun n => match n with NSent k => [(t, k)] | _ => [] end) new.
Proof. induction new as [|[] new IH]; cbn; unfold sent in *; cbn; congruence. Qed.
(** the sequence numbers *)
Lemma pinging_numbers t0 es h : pinging t0 es h -> map snd (sent h) = map (number first) (seq 0 (length (sent h))) /\ sent h <> [].
Proof.
  induction 1 as [Hs|es h t x new P [IH IH'] O Nx|es h e P IH O].
  - cbn. split; [reflexivity|discriminate].
  - rewrite sent_app'. split; [|intros E; apply app_eq_nil in E; tauto]. rewrite sent_map.
    inversion Nx; subst; cbn [flat_map]; rewrite ?app_nil_r; auto.
    rewrite map_app, app_length, IH. cbn [map length]. rewrite seq_app, map_app. reflexivity.
  - exact IH.
Qed.
(** the distances *)
Lemma spaced_snoc d l t : spaced d l -> (forall t1, In t1 l -> t1 + d <= t) -> spaced d (l ++ [t]).
Proof.
  induction l as [|t1 [|t2 l] IH]; cbn; intros S H; [exact Logic.I|split; [|exact Logic.I]; apply H; now left|].
  split; [apply S|]. apply IH; [apply S|]. intros t3 J. apply H. now right.
Qed.
Lemma pinging_spaced t0 es h : pinging t0 es h -> spaced (ms (ga_interval a)) (map fst (sent h)).
Proof.
  induction 1 as [Hs|es h t x new P IH O Nx|es h e P IH O]; [exact Logic.I| |exact IH].
  rewrite sent_app', sent_map. inversion Nx; subst; cbn [flat_map]; rewrite ?app_nil_r; auto.
  rewrite map_app. apply spaced_snoc; [exact IH|]. intros t1 J. apply in_map_iff in J as ([t2 k2] & <- & J). apply in_sent in J. eauto.
Qed.
(** the number of pings *)
Lemma pinging_count t0 es h c : pinging t0 es h -> ga_count a = Some c -> 1 <= c -> Z.of_nat (length (sent h)) <= c.
Proof.
  intros P Ec Hc. induction P as [Hs|es h t x new P IH O Nx|es h e P IH O]; [cbn; lia| |exact IH].
  rewrite sent_app', sent_map, app_length. inversion Nx; subst; cbn [flat_map length app]; try lia.
  assert (Z.of_nat (length (sent h)) <> c) by (intros E; apply H0; exists c; auto). lia.
Qed.
(** every outcome has its cause *)
Lemma pinging_data t0 es h t k : pinging t0 es h -> In (t, NData k) h -> In (t, PhData k) es.
Proof.
  induction 1 as [Hs|es h t' x new P IH O Nx|es h e P IH O]; intros J.
  - destruct J as [J|[]]. discriminate.
  - apply in_or_app. apply in_app_or in J as [J|J]; [left; auto|right]. apply in_map_iff in J as (n & [= -> ->] & J).
    inversion Nx; subst; cbn in J; try tauto; destruct J as [[=]|[]]. subst. now left.
  - apply in_or_app. left. auto.
Qed.
End Notes.

(** * Consequences for the program *)
Section Consequences.
Variable nonce : N -> list N.
Variable parse_name : text -> option name.
Variable uri : name -> text.
Variable usage version : text.
Variable stamp : Z -> text.
Variable word64 : N.
Variable face_error : bool.
Variable send_error : N -> text.
Variable a : ping_args.
Variable t0 : Z.
Variable es : list (Z * ping_happens).
Notation first := (match ga_start a with Some k => k | None => word64 end).
Variable r : ping_result.
Hypothesis B : ping_behaves nonce parse_name uri usage version stamp word64 face_error send_error t0 es (inr a) r.

Lemma behaves_wire : go_wire r = [] \/
  exists n es1 es2 h, ping_accepts parse_name a n /\ es = es1 ++ es2 /\ pinging nonce a n first t0 es1 h /\ go_wire r = packets nonce a n h.
Proof.
  inversion B as [| | | | | | |? n ? ? ? Ac ? ? ? Rn]; subst; auto. inversion Rn; subst; auto; right.
  - exists n, es, [], h. rewrite app_nil_r. auto.
  - exists n, es, [], h. rewrite app_nil_r. auto.
  - exists n, es, [], h. rewrite app_nil_r. auto.
  - exists n, es1, ((t, x) :: es2), h. auto.
Qed.
Lemma sent_spaced : spaced (ms (ga_interval a)) (map fst (go_wire r)).
Proof.
  destruct behaves_wire as [->|(n & es1 & es2 & h & _ & _ & P & ->)]; [exact Logic.I|].
  unfold packets. rewrite map_map. cbn [fst]. exact (pinging_spaced _ _ _ _ _ _ _ P).
Qed.
Lemma sent_count c : ga_count a = Some c -> Z.of_nat (length (go_wire r)) <= Z.max c 0.
Proof.
  intros Ec. destruct behaves_wire as [->|(n & es1 & es2 & h & Ac & _ & P & ->)]; [cbn; lia|].
  unfold packets. rewrite map_length. pose proof (pinging_count _ _ _ _ _ _ _ _ P Ec (gk_count _ _ _ Ac c Ec)). lia.
Qed.
Lemma sent_packets i t p : nth_error (go_wire r) i = Some (t, p) ->
  exists n, ping_accepts parse_name a n /\ p = ping_wire nonce a n (number first i).
Proof.
  intros E. destruct behaves_wire as [W|(n & es1 & es2 & h & Ac & _ & P & W)]; rewrite W in E; [destruct i; discriminate|].
  exists n. split; [exact Ac|]. destruct (pinging_numbers _ _ _ _ _ _ _ P) as [Nm _]. unfold packets in E.
  rewrite nth_error_map in E. destruct (nth_error (sent h) i) as [[t' k]|] eqn:Ei; [|discriminate]. injection E as <- <-. cbn [snd].
  f_equal. pose proof (map_nth_error snd _ _ Ei) as E. rewrite Nm in E. cbn in E.
  assert (Hi : (i < length (sent h))%nat) by (apply nth_error_Some; congruence).
  rewrite nth_error_map, (nth_error_nth' _ 0%nat) in E by (rewrite seq_length; exact Hi). rewrite seq_nth in E by exact Hi. cbn in E. congruence.
Qed.
Lemma interrupted_cause n h : pinging nonce a n first t0 es h -> interrupted h -> exists t, In (t, PhInterrupt) es.
Proof.
  clear B. induction 1 as [Hs|es h t' x new P IH O Nx|es h e P IH O]; intros (t & J).
  - destruct J as [J|[]]. discriminate.
  - apply in_app_or in J as [J|J].
    + destruct IH as (t2 & J2); [now exists t|]. exists t2. apply in_or_app. now left.
    + apply in_map_iff in J as (nt & [= -> ->] & J). inversion Nx; subst; cbn in J; try tauto; destruct J as [[=]|[]].
      exists t. apply in_or_app. right. now left.
  - destruct IH as (t2 & J2); [now exists t|]. exists t2. apply in_or_app. now left.
Qed.
Lemma success_means : ga_version a = false -> go_end r = GExited 0 ->
  go_wire r <> [] /\
  (forall i, (i < length (go_wire r))%nat -> exists t, In (t, PhData (number first i)) es) /\
  (ga_count a = Some (Z.of_nat (length (go_wire r))) \/ exists t, In (t, PhInterrupt) es).
Proof.
  intros V E. inversion B as [| |? ? V'| | | | |? n ? ? ? Ac ? ? ? Rn]; subst; cbn in E; try congruence.
  inversion Rn as [|h out rep P O Po Rp Ad| | |]; subst; cbn in E; try discriminate. cbn [go_wire].
  destruct (pinging_numbers _ _ _ _ _ _ _ P) as [Nm Ne]. unfold packets. rewrite map_length. split; [|split].
  - intros E'. apply map_eq_nil in E'. contradiction.
  - intros i Hi. destruct (nth_error (sent h) i) as [[t k]|] eqn:Ei; [|now apply nth_error_None in Ei; lia].
    pose proof (map_nth_error snd _ _ Ei) as Ek. rewrite Nm, nth_error_map, (nth_error_nth' _ 0%nat) in Ek by (rewrite seq_length; exact Hi).
    rewrite seq_nth in Ek by exact Hi. cbn in Ek. injection Ek as Ek. apply nth_error_In, in_sent in Ei.
    destruct (Ad t k Ei) as (t' & J). exists t'. rewrite Ek. exact (pinging_data _ _ _ _ _ _ _ _ _ P J).
  - destruct O as [[Oi|(c & Ec & El)] _]; [right; exact (interrupted_cause _ _ P Oi)|left]. now rewrite Ec, El.
Qed.
End Consequences.
Lemma start_of (a : ping_args) : (forall k, ga_start a = Some k -> (k < 2 ^ 64)%N) ->
  forall a' k, @inr text ping_args a = inr a' -> ga_start a' = Some k -> (k < 2 ^ 64)%N.
Proof. intros H a' k E. injection E as <-. apply H. Qed.
