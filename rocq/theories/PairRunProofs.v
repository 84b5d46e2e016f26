From Verif Require Import Base BaseFacts TlvModel TlvProofs PingModel PingSpec PingProofs PeekModel PeekPokeModel PeekWireModel PeekWireSpec PeekWireProofs PutchunksModel
  DumpModel DissectSpec PingTextSpec PingRunModel PingRunSpec PingRunProofs PingRunProofs2 PingRunProofs3 ServerRunModel ServerRunSpec ServerRunProofs PairRunSpec.
From Coq Require Import String List ZArith Lia Permutation.
Import ListNotations.
Local Open Scope Z_scope.
Local Open Scope list_scope.

Lemma nodup_app {A} (a b : list A) : NoDup a -> NoDup b -> (forall x, In x a -> In x b -> False) -> NoDup (a ++ b).
Proof.
  induction 1 as [|x a Nx Na IH]; intros Nb D; [exact Nb|]. cbn. constructor.
  - intros I. apply in_app_or in I as [I|I]; [contradiction|]. apply (D x); [now left|exact I].
  - apply IH; [exact Nb|]. intros y I J. apply (D y); [now right|exact J].
Qed.
Lemma nodup_map {A B} (f : A -> B) l : (forall x y, In x l -> In y l -> f x = f y -> x = y) -> NoDup l -> NoDup (map f l).
Proof.
  intros Inj. induction 1 as [|x l Nx Nl IH]; [constructor|]. cbn. constructor.
  - intros I. apply in_map_iff in I as (y & E & I). apply Inj in E; [subst; contradiction|now right|now left].
  - apply IH. intros y z I J. apply Inj; now right.
Qed.

(** * The notes of ndnping *)
Definition outs (h : notes) : list N :=
  flat_map (fun e => match snd e with NData k | NNack k _ | NTimeout k => [k] | _ => [] end) h.
Lemma outs_app h h' : outs (h ++ h') = outs h ++ outs h'. Proof. apply flat_map_app. Qed.
Lemma in_outs h k : In k (outs h) <-> settled h k.
Proof.
  unfold outs, settled. rewrite in_flat_map. split.
  - intros ([t x] & I & J). cbn in J. destruct x; cbn in J; try tauto; destruct J as [<-|[]]; exists t; eauto.
  - intros (t & [I|[(c & I)|I]]); eexists; (split; [exact I|cbn; now left]).
Qed.
Lemma outs_perm g l : Permutation (outs l) (settled_seqs (flat_map (own_outcome g) l)).
Proof.
  unfold settled_seqs. induction l as [|[t x] l IH]; [constructor|].
  destruct x as [k|k|k c|k| |]; cbn in *; try exact IH.
  - now constructor.
  - eapply perm_trans; [constructor; exact IH|]. apply Permutation_middle.
  - eapply perm_trans; [constructor; exact IH|]. unfold data_seqs, nack_seqs, timeout_seqs. rewrite !app_assoc. apply Permutation_middle.
Qed.
Lemma outs_length h : length (settled_seqs (measured h)) = length (outs h).
Proof. rewrite measured_eq. symmetry. apply Permutation_length, outs_perm. Qed.

Section Notes.
Variable nonce : N -> list N.
Variable a : ping_args.
Variable prefix : name.
Variable first : N.
Notation pinging := (PingRunSpec.pinging nonce a prefix first).

Lemma pinging_few t0 es h : pinging t0 es h -> (length (sent h) <= S (length es))%nat.
Proof.
  induction 1 as [Hs|es h t x new P IH O Nx|es h e P IH O]; [cbn; lia| |rewrite app_length; lia].
  rewrite sent_app', sent_map, !app_length. cbn [length]. inversion Nx; subst; cbn [flat_map length app]; lia.
Qed.
Lemma number_inj i j : (Z.of_nat i < 1000000002) -> (Z.of_nat j < 1000000002) -> number first i = number first j -> i = j.
Proof using first. clear nonce.
  unfold number. intros Hi Hj E. destruct (Nat.lt_trichotomy i j) as [L|[->|L]]; [exfalso|reflexivity|exfalso].
  - assert (H : ((first + N.of_nat j) = (first + N.of_nat i) + N.of_nat (j - i))%N) by lia. rewrite H in E.
    set (x := (first + N.of_nat i)%N) in *. assert (D : (0 < N.of_nat (j - i) < 2 ^ 64)%N) by (split; [lia|]; apply N.lt_le_trans with 1000000002%N; [lia|vm_compute; discriminate]).
    pose proof (N.div_mod x (2 ^ 64) ltac:(discriminate)). pose proof (N.div_mod (x + N.of_nat (j - i)) (2 ^ 64) ltac:(discriminate)).
    rewrite <- E in H1. set (q := (x / 2 ^ 64)%N) in *. set (q' := ((x + N.of_nat (j - i)) / 2 ^ 64)%N) in *.
    set (m := (2 ^ 64)%N) in *. assert (m * q + N.of_nat (j - i) = m * q')%N by lia. nia.
  - assert (H : ((first + N.of_nat i) = (first + N.of_nat j) + N.of_nat (i - j))%N) by lia. rewrite H in E.
    set (x := (first + N.of_nat j)%N) in *. assert (D : (0 < N.of_nat (i - j) < 2 ^ 64)%N) by (split; [lia|]; apply N.lt_le_trans with 1000000002%N; [lia|vm_compute; discriminate]).
    pose proof (N.div_mod x (2 ^ 64) ltac:(discriminate)). pose proof (N.div_mod (x + N.of_nat (i - j)) (2 ^ 64) ltac:(discriminate)).
    rewrite E in H1. set (q := (x / 2 ^ 64)%N) in *. set (q' := ((x + N.of_nat (i - j)) / 2 ^ 64)%N) in *.
    set (m := (2 ^ 64)%N) in *. assert (m * q + N.of_nat (i - j) = m * q')%N by lia. nia.
Qed.
Lemma sent_nodup t0 es h : pinging t0 es h -> Z.of_nat (length es) < 1000000000 -> NoDup (map snd (sent h)).
Proof.
  intros P L. destruct (pinging_numbers _ _ _ _ _ _ _ P) as [-> _]. pose proof (pinging_few _ _ _ P).
  apply nodup_map; [|apply seq_NoDup]. intros i j I J E. apply in_seq in I, J. apply number_inj in E; lia.
Qed.
Lemma sent_once t0 es h t1 t2 k : pinging t0 es h -> Z.of_nat (length es) < 1000000000 -> In (t1, NSent k) h -> In (t2, NSent k) h -> t1 = t2.
Proof.
  intros P L I J. apply in_sent in I, J. pose proof (sent_nodup _ _ _ P L) as Nd. clear P. induction (sent h) as [|[t k'] l IH]; [contradiction|].
  cbn in Nd. apply NoDup_cons_iff in Nd. destruct Nd as [N1 N2]. destruct I as [I|I], J as [J|J]; auto; [congruence|..].
  - injection I as -> ->. destruct N1. apply in_map_iff. exists (t2, k). auto.
  - injection J as -> ->. destruct N1. apply in_map_iff. exists (t1, k). auto.
Qed.
(** no ping has two outcomes, and only pings that were sent have one *)
Lemma outs_nodup t0 es h : pinging t0 es h -> NoDup (outs h) /\ incl (outs h) (map snd (sent h)).
Proof.
  induction 1 as [Hs|es h t x new P [IH1 IH2] O Nx|es h e P IH O]; [split; [constructor|intros k []]| |exact IH].
  assert (W : forall k t1, waiting h k t1 -> NoDup (outs h ++ [k]) /\ incl (outs h ++ [k]) (map snd (sent h))).
  { intros k t1 [W1 W2]. split.
    - apply nodup_app; [exact IH1|repeat constructor; intros []|]. intros y I [<-|[]]. now apply W2, in_outs.
    - apply incl_app; [exact IH2|]. intros y [<-|[]]. apply in_map_iff. exists (t1, k). split; [reflexivity|]. now apply in_sent. }
  rewrite outs_app, sent_app', map_app, sent_map.
  inversion Nx; subst; cbn [map outs flat_map snd fst app]; rewrite ?app_nil_r; eauto.
  split; [exact IH1|]. now apply incl_appl.
Qed.

(** ** The clock *)
Lemma clocked_split t0 l1 l2 : clocked t0 (l1 ++ l2) -> t0 < 2 ^ 63 -> clocked t0 l1.
Proof using. clear nonce.
  revert t0. induction l1 as [|e l1 IH]; intros t0 C B; [exact B|]. cbn in *. split; [apply C|]. apply IH; [apply C|].
  destruct C as [_ C]. clear -C. revert C. generalize (fst e). induction (l1 ++ l2) as [|x l IH]; intros z C; cbn in C; [exact C|].
  destruct C as [C1 C2]. apply IH in C2. lia.
Qed.
Lemma clocked_start t0 l : clocked t0 l -> t0 < 2 ^ 63.
Proof using. clear nonce. revert t0. induction l as [|e l IH]; intros t0 C; [exact C|]. destruct C as [C1 C2]. apply IH in C2. lia. Qed.
Lemma clocked_last t0 l t x : clocked t0 (l ++ [(t, x)]) -> t0 <= t /\ forall t' x', In (t', x') l -> t' <= t.
Proof using. clear nonce.
  revert t0. induction l as [|e l IH]; intros t0 C; cbn in C; [cbn in C; split; [apply C|intros ? ? []]|].
  destruct C as [C1 C2]. apply IH in C2 as [C2 C3]. split; [lia|]. intros t' x' [->|I]; [cbn in C2; lia|eauto].
Qed.
Lemma note_time t0 es h t n : pinging t0 es h -> In (t, n) h -> t = t0 \/ exists x, In (t, x) es.
Proof.
  intros P. revert t n. induction P as [Hs|es h t' x new P IH O Nx|es h e P IH O]; intros t n I.
  - destruct I as [[= <- <-]|[]]. now left.
  - apply in_app_or in I as [I|I].
    + destruct (IH _ _ I) as [->|(y & J)]; [now left|right]. exists y. apply in_or_app. now left.
    + apply in_map_iff in I as (m & [= -> ->] & I). right. exists x. apply in_or_app. right. now left.
  - destruct (IH _ _ I) as [->|(y & J)]; [now left|right]. exists y. apply in_or_app. now left.
Qed.
Lemma timeout_note t0 es h t k : pinging t0 es h -> In (t, NTimeout k) h -> exists t1, In (t1, NSent k) h /\ t1 + ms (ga_timeout a) <= t.
Proof.
  induction 1 as [Hs|es h t' x new P IH O Nx|es h e P IH O]; intros I; [destruct I as [[=]|[]]| |exact (IH I)].
  apply in_app_or in I as [I|I]; [destruct (IH I) as (t1 & J & L); exists t1; split; [apply in_or_app; now left|exact L]|].
  apply in_map_iff in I as (m & [= -> ->] & I). inversion Nx; subst; cbn in I; try tauto; destruct I as [[=]|[]]; subst.
  destruct H as [W1 W2]. exists t1. split; [apply in_or_app; now left|assumption].
Qed.
Lemma nack_note t0 es h t k c : pinging t0 es h -> In (t, NNack k c) h -> In (t, PhNack k c) es.
Proof.
  induction 1 as [Hs|es h t' x new P IH O Nx|es h e P IH O]; intros J.
  - destruct J as [J|[]]. discriminate.
  - apply in_or_app. apply in_app_or in J as [J|J]; [left; auto|right]. apply in_map_iff in J as (n & [= -> ->] & J).
    inversion Nx; subst; cbn in J; try tauto; destruct J as [[=]|[]]. subst. now left.
  - apply in_or_app. left. auto.
Qed.
(** Data that comes between the sending and the timeout is noted *)
Lemma answered t0 es h t t' k : pinging t0 es h -> clocked t0 es -> Z.of_nat (length es) < 1000000000 ->
  (forall t1 k1 c, ~ In (t1, PhNack k1 c) es) ->
  In (t, NSent k) h -> In (t', PhData k) es -> t < t' < t + ms (ga_timeout a) -> exists t2, In (t2, NData k) h.
Proof.
  intros P C L Nn S D T. revert S D.
  assert (Done : forall es h e, pinging t0 es h -> clocked t0 (es ++ [e]) -> Z.of_nat (length es) < 1000000000 -> (forall t1 k1 c, ~ In (t1, PhNack k1 c) es) ->
    t' <= fst e -> fst e = t' \/ In (t', PhData k) es -> In (t, NSent k) h -> settled h k -> (exists t2, In (t2, NData k) h) \/ In (t', PhData k) es).
  { clear -T. intros es h [te e] P C L Nn Le Eq S (t2 & [J|[(c & J)|J]]); [eauto|destruct (Nn t2 k c (nack_note _ _ _ _ _ _ P J))|].
    destruct Eq as [Eq|Eq]; [|now right]. cbn in Eq, Le. subst te.
    destruct (timeout_note _ _ _ _ _ P J) as (t1 & J1 & J2). rewrite (sent_once _ _ _ _ _ _ P L J1 S) in J2.
    apply clocked_last in C as [C1 C2]. destruct (note_time _ _ _ _ _ P J) as [->|(y & Jy)]; [lia|]. specialize (C2 _ _ Jy). lia. }
  induction P as [Hs|es h te x new P IH O Nx|es h e P IH O]; intros S D; [destruct D| |].
  - assert (C' : clocked t0 es) by (eapply clocked_split; [exact C|eapply clocked_start; exact C]).
    assert (L' : Z.of_nat (length es) < 1000000000) by (rewrite app_length in L; lia).
    assert (Nn' : forall t1 k1 c, ~ In (t1, PhNack k1 c) es) by (intros t1 k1 c J; apply (Nn t1 k1 c), in_or_app; now left).
    specialize (IH C' L' Nn'). pose proof (clocked_last _ _ _ _ C) as [C1 C2].
    apply in_app_or in D as [D|[D|[]]].
    + apply in_app_or in S as [S|S].
      * destruct (IH S D) as (t2 & J). exists t2. apply in_or_app. now left.
      * apply in_map_iff in S as (m & [= -> ->] & S). specialize (C2 _ _ D). lia.
    + injection D as -> ->. apply in_app_or in S as [S|S]; [|apply in_map_iff in S as (m & [= -> ->] & S); inversion Nx; subst; cbn in S; try tauto; destruct S as [[=]|[]]].
      destruct (in_dec N.eq_dec k (outs h)) as [I|I].
      * apply in_outs in I. destruct (Done es h (t', PhData k) P C L' Nn') as [(t2 & J)|D]; auto; [cbn; lia|..].
        { exists t2. apply in_or_app. now left. }
        { destruct (IH S D) as (t2 & J). exists t2. apply in_or_app. now left. }
      * exists t'. assert (W : waiting h k t) by (split; [exact S|]; intros Q; now apply I, in_outs).
        inversion Nx; subst; [apply in_or_app; right; now left|..].
        exfalso. eapply H0. destruct H as [[H|[H|[]]]|(c & H)]; try discriminate. injection H as ->. exact W.
  - assert (C' : clocked t0 es) by (eapply clocked_split; [exact C|eapply clocked_start; exact C]).
    assert (L' : Z.of_nat (length es) < 1000000000) by (rewrite app_length in L; lia).
    assert (Nn' : forall t1 k1 c, ~ In (t1, PhNack k1 c) es) by (intros t1 k1 c J; apply (Nn t1 k1 c), in_or_app; now left).
    apply in_app_or in D as [D|[D|[]]]; [exact (IH C' L' Nn' S D)|]. subst e.
    destruct (Done es h (t', PhData k) P C L' Nn') as [(t2 & J)|D]; eauto; [cbn; lia|]. apply O with t. exact S.
Qed.

(** ** The packets *)
Lemma ping_name_inj j k : (j < 2 ^ 64)%N -> (k < 2 ^ 64)%N -> ping_name a prefix j = ping_name a prefix k -> j = k.
Proof using a prefix. clear nonce.
  intros Hj Hk E. unfold ping_name in E. apply app_inv_head in E. injection E as E. apply app_inv_head in E. injection E as E.
  apply to_string_inj in E; auto.
Qed.
Lemma number_lt i : (number first i < 2 ^ 64)%N. Proof using first. clear nonce. apply N.mod_lt. discriminate. Qed.
Lemma sent_can t0 es h t k : pinging t0 es h -> In (t, NSent k) h -> can_send nonce a prefix k /\ exists i, k = number first i.
Proof.
  induction 1 as [Hs|es h t' x new P IH O Nx|es h e P IH O]; intros I; [destruct I as [[= <- <-]|[]]; eauto| |exact (IH I)].
  apply in_app_or in I as [I|I]; [exact (IH I)|]. apply in_map_iff in I as (m & [= -> ->] & I).
  inversion Nx; subst; cbn in I; try tauto; destruct I as [[=]|[]]; subst. eauto.
Qed.
Lemma types_in nc f t v : In (t, v) (interest_fields nc f) -> In t [7; 33; 18; 30; 10; 12; 34; 36]%N.
Proof using. clear nonce.
  unfold interest_fields. rewrite !in_app_iff. intros H.
  assert (G : forall (b : bool) x, In (t, v) (if b then [] else x) -> In (t, v) x) by (intros [] x; [intros []|auto]).
  assert (G' : forall (b : bool) x, In (t, v) (if b then x else []) -> In (t, v) x) by (intros [] x; [auto|intros []]).
  cbn [In]. destruct H as [H|[H|[H|[H|[H|[H|[H|H]]]]]]].
  - destruct H as [[= <- <-]|[]]. auto.
  - apply G' in H. destruct H as [[= <- <-]|[]]. auto.
  - apply G' in H. destruct H as [[= <- <-]|[]]. auto.
  - destruct (fi_hint f); [destruct H|]. destruct H as [[= <- <-]|[]]. auto 10.
  - destruct H as [[= <- <-]|[]]. auto 10.
  - apply G in H. destruct H as [[= <- <-]|[]]. auto 10.
  - destruct (fi_hopLimit f); [|destruct H]. destruct H as [[= <- <-]|[]]. auto 10.
  - destruct (fi_params f); [|destruct H]. destruct H as [[= <- <-]|[]]. auto 10.
Qed.
Lemma comp_len (n : name) c : In c n -> (length (c_value c) <= length (flat_map (fun c => tlv (c_type c) (c_value c)) n))%nat.
Proof using. clear nonce.
  induction n as [|c' n IH]; [intros []|]. cbn [flat_map]. rewrite app_length. intros [->|I]; [unfold tlv; rewrite !app_length; lia|].
  specialize (IH I). lia.
Qed.
Lemma names_comps_ok k : Forall comp_ok prefix -> (length (ping_wire nonce a prefix k) <= 8 * 1100)%nat -> Forall comp_ok (ping_name a prefix k).
Proof using nonce a prefix.
  intros Pk L. assert (Lv : forall c, In c (ping_name a prefix k) -> u64 (N.of_nat (length (c_value c)))).
  { intros c I. apply short_u64. apply comp_len in I. etransitivity; [exact I|]. etransitivity; [|exact L].
    unfold ping_wire, interest_wire, interest_fields. cbn [fi_interest i_name app flat_map fst snd]. unfold tlv at 2 3. rewrite !app_length. lia. }
  assert (Q : forall v, In (Comp TGeneric v) (ping_name a prefix k) -> comp_ok (Comp TGeneric v)).
  { intros v I. split; [unfold type_ok, TGeneric; cbn; lia|]. exact (Lv _ I). }
  apply Forall_forall. intros c I. pose proof I as I'. unfold ping_name in I. apply in_app_or in I as [I|I]; [rewrite Forall_forall in Pk; auto|].
  cbn [app In] in I. destruct I as [<-|I]; [auto|]. apply in_app_or in I as [I|I]; [destruct (ga_identifier a) as [y|]; cbn [In] in I; [destruct I as [I|I]; [subst c; auto|destruct I]|destruct I]|].
  destruct I as [<-|[]]. auto.
Qed.
Lemma length_of (w : list N) : (N.of_nat (length w) <= 8800)%N -> (length w <= 8 * 1100)%nat.
Proof using. clear nonce. intros H. assert (N.of_nat (8 * 1100) = 8800%N) by (vm_compute; reflexivity). lia. Qed.
Lemma carries_name k i : Forall comp_ok prefix -> can_send nonce a prefix k -> carries (ping_wire nonce a prefix k) i -> i_name i = ping_name a prefix k.
Proof using nonce a prefix.
  intros Pk (_ & _ & L) (es & W & Ok & H & Ci & _). apply length_of in L.
  set (fs := interest_fields (nonce k) (FullInterest (Interest (ping_name a prefix k) false (negb (ga_cache a))) [] (ga_timeout a) None None)) in *.
  assert (W' : interest_of (ping_wire nonce a prefix k) fs) by reflexivity.
  destruct (es_ok (fun x => x) _ fs W' L (types_in _ _)) as [Ok' E5]. unfold interest_of in W, W'.
  assert (E5' : elem_ok 5 (encode_all es)).
  { split; [unfold type_ok; lia|]. apply short_u64. etransitivity; [|exact L]. rewrite W. unfold tlv. rewrite !app_length. lia. }
  rewrite W' in W. apply tlv_inj in W; auto. destruct W as [_ W]. apply encode_all_inj in W; auto. subst es.
  destruct H as [_ H]. specialize (H (flat_map (fun c => tlv (c_type c) (c_value c)) (ping_name a prefix k)) ltac:(now left)).
  apply comps_inj in H; [now symmetry|now apply names_comps_ok|exact Ci].
Qed.
Lemma carries_own k : Forall comp_ok prefix -> can_send nonce a prefix k ->
  carries (ping_wire nonce a prefix k) (Interest (ping_name a prefix k) false (negb (ga_cache a))).
Proof using nonce a prefix.
  intros Pk (_ & _ & L). apply length_of in L.
  set (fs := interest_fields (nonce k) (FullInterest (Interest (ping_name a prefix k) false (negb (ga_cache a))) [] (ga_timeout a) None None)) in *.
  assert (W' : interest_of (ping_wire nonce a prefix k) fs) by reflexivity.
  destruct (es_ok (fun x => x) _ fs W' L (types_in _ _)) as [Ok' E5].
  exists fs. split; [exact W'|]. split; [exact Ok'|]. destruct (fields_spec (fun x => x) _ _ fs eq_refl) as (F1 & F2 & F3 & _).
  split; [exact F1|]. split; [now apply names_comps_ok|]. split; [exact F2|exact F3].
Qed.
End Notes.

(** * The server *)
Lemma asked_cons t x ses : asked ((t, x) :: ses) = match x with VInterest i => [i_name i] | _ => [] end ++ asked ses.
Proof. reflexivity. Qed.
Lemma in_asked ses m : In m (asked ses) <-> exists t i, In (t, VInterest i) ses /\ i_name i = m.
Proof.
  unfold asked. rewrite in_flat_map. split.
  - intros ([t x] & I & J). destruct x; cbn in J; try tauto. destruct J as [J|[]]. eauto.
  - intros (t & i & I & E). exists (t, VInterest i). split; [exact I|now left].
Qed.
Section Server.
Variable sign : packet -> list N * list N.
Variable name_uri : name -> text.
Variable comp_uri : component -> text.
Variable stamp : Z -> text.
Variable put_error : text.
Variable b : server_args.
Variable n : name.
Notation SERVING := (serving sign name_uri comp_uri stamp put_error b n).
Notation names := (map (fun e : Z * packet => k_name (snd e))).

Lemma serving_names k w ses s o e x : SERVING k w ses s o e x -> NoDup (asked ses) -> NoDup (names s) /\ incl (names s) (asked ses).
Proof.
  induction 1; intros Nd; rewrite ?asked_cons in *; cbn [app] in *; try (now apply IHserving); try (split; [apply NoDup_nil|intros m []; fail]).
  - apply NoDup_cons_iff in Nd. destruct (IHserving (proj2 Nd)) as [N1 N2]. split; [exact N1|]. now apply incl_tl.
  - apply NoDup_cons_iff in Nd. destruct Nd as [Nd1 Nd2]. destruct (IHserving Nd2) as [N1 N2]. destruct H0 as [En _]. cbn [map snd]. rewrite En. split.
    + constructor; [|exact N1]. intros I. apply Nd1, N2, I.
    + intros m [<-|I]; [now left|right; auto].
  - destruct H0 as [En _]. cbn [map snd]. rewrite En. split; [repeat constructor; intros []|]. intros m [<-|[]]. now left.
Qed.
(** a server that is left alone answers all pings *)
Lemma serving_all k w ses s o e x : SERVING k w ses s o e x ->
  (forall t y, In (t, y) ses -> y = VRegSuccess \/ exists i, y = VInterest i) ->
  va_max b = 0 \/ Z.of_N k + Z.of_nat (length (asked ses)) <= va_max b ->
  (forall t i d, In (t, VInterest i) ses -> for_server n i -> reply b i d -> short_enough sign d) ->
  forall t i, In (t, VInterest i) ses -> for_server n i -> exists d, In (t, d) s /\ k_name d = i_name i.
Proof.
  induction 1; intros Al Lm Sh t' j I F.
  - destruct I.
  - rewrite asked_cons in Lm. cbn [app length] in Lm. destruct I as [[= -> ->]|I]; [contradiction|]. apply IHserving; auto.
    + exact (fun t1 y J => Al t1 y (or_intror J)).
    + lia.
    + exact (fun t1 i1 d1 J => Sh t1 i1 d1 (or_intror J)).
  - rewrite asked_cons in Lm. cbn [app length] in Lm. destruct I as [[= -> ->]|I]; [exists d; split; [now left|apply H0]|].
    destruct (IHserving) with (t := t') (i := j) as (d' & J & E); auto.
    + exact (fun t1 y J => Al t1 y (or_intror J)).
    + lia.
    + exact (fun t1 i1 d1 J => Sh t1 i1 d1 (or_intror J)).
    + exists d'. split; [now right|exact E].
  - rewrite asked_cons in Lm. cbn [app length] in Lm. destruct I as [[= -> ->]|I]; [exists d; split; [now left|apply H0]|].
    exfalso. assert (J : In (i_name j) (asked es)) by (apply in_asked; eauto). destruct (asked es); [destruct J|]. cbn [length] in Lm. lia.
  - exfalso. apply H1. exact (Sh t i d (or_introl eq_refl) H H0).
  - exfalso. destruct (Al t VInterrupt (or_introl eq_refl)) as [Q|(y & Q)]; discriminate.
  - rewrite asked_cons in Lm. cbn [app length] in Lm. destruct I as [[=]|I]. apply IHserving; auto.
    + exact (fun t1 y J => Al t1 y (or_intror J)).
    + exact (fun t1 i1 d1 J => Sh t1 i1 d1 (or_intror J)).
  - exfalso. destruct (Al t (VRegFailure reason) (or_introl eq_refl)) as [Q|(y & Q)]; discriminate.
  - exfalso. destruct (Al t (VRegFailure reason) (or_introl eq_refl)) as [Q|(y & Q)]; discriminate.
  - exfalso. destruct (Al t (VFails what) (or_introl eq_refl)) as [Q|(y & Q)]; discriminate.
Qed.
End Server.

(** * Both programs *)
Section Both.
Variable nonce : N -> list N.
Variable parse_name : text -> option name.
Variable uri : name -> text.
Variable usage version : text.
Variable stamp : Z -> text.
Variable word64 : N.
Variable face_error : bool.
Variable send_error : N -> text.
Variable sign : packet -> list N * list N.
Variable comp_uri : component -> text.
Variable server_usage server_version : text.
Variable server_stamp : Z -> text.
Variable start_error : Z -> bool.
Variable put_error : text.
Hypothesis Hw : (word64 < 2 ^ 64)%N.
Notation ndnping := (ping_program nonce parse_name uri usage version stamp word64 face_error send_error).
Notation ndnpingserver := (server_program sign parse_name uri comp_uri server_usage server_version server_stamp start_error put_error).

Section Run.
Variables (a : ping_args) (n : name) (t0 : Z) (es : list (Z * ping_happens)).
Hypothesis Hs : forall k, ga_start a = Some k -> (k < 2 ^ 64)%N.
Hypothesis Hp : plausible_run t0 es.
Hypothesis Ac : ping_accepts parse_name a n.
Hypothesis Ok : Forall comp_ok n.
Notation first := (match ga_start a with Some k => k | None => word64 end).

Lemma same_name n' : ping_accepts parse_name a n' -> n' = n.
Proof. intros [(p & E1 & E2) _ _ _]. destruct (gk_prefix _ _ _ Ac) as (p' & E1' & E2'). congruence. Qed.
Definition notes_of (h : notes) (r : ping_result) : Prop :=
  pinging nonce a n first t0 es h /\ over a h /\ go_wire r = packets nonce a n h /\
  says_at_end (uri n) (go_stdout r) (length (sent h)) (length (data_seqs (measured h))) (length (nack_seqs (measured h))).
Lemma over_lengths h : pinging nonce a n first t0 es h -> over a h -> length (settled_seqs (measured h)) = length (sent h).
Proof.
  intros P [_ O]. rewrite outs_length, <- (map_length snd (sent h)). destruct (outs_nodup _ _ _ _ _ _ _ P) as [N1 N2].
  pose proof (sent_nodup _ _ _ _ _ _ _ P (proj2 (proj2 Hp))) as N3. apply Nat.le_antisymm.
  - now apply NoDup_incl_length.
  - apply NoDup_incl_length; [exact N3|]. intros k I. apply in_map_iff in I as ([t k'] & <- & I). apply in_outs. apply in_sent in I. exact (O t _ I).
Qed.
Lemma report_says h out rep : pinging nonce a n first t0 es h -> over a h -> report (uri n) (measured h) rep ->
  says_at_end (uri n) (title (uri n) ++ out ++ rep) (length (sent h)) (length (data_seqs (measured h))) (length (nack_seqs (measured h))).
Proof.
  intros P O (sn & rc & nk & rates & tm & times & -> & C1 & C2 & C3 & _). rewrite (over_lengths _ P O) in C1.
  exists (title (uri n) ++ out), sn, rc, nk, (rates ++ str ", time " ++ tm ++ str " ms" ++ times ++ LF). rewrite <- !app_assoc. auto.
Qed.
Lemma ended_notes : let r := ndnping (inr a) t0 es in ga_version a = false -> In (go_end r) [GExited 0; GExited 1] -> exists h, notes_of h r.
Proof.
  intros r V E. pose proof (ping_program_spec nonce parse_name uri usage version stamp word64 face_error send_error Hw (inr a) t0 es Hp (start_of a Hs)) as B.
  fold r in B. clearbody r.
  inversion B as [| |? ? V'| | | | |? n' ? ? ? Ac' ? ? ? Rn]; subst; cbn in E; try (intuition congruence).
  apply same_name in Ac'. subst n'.
  inversion Rn as [|h out rep P O Po Rp Ad|h out rep P O Po Rp Ad| |]; subst; cbn in E; try (intuition discriminate);
    exists h; (split; [exact P|split; [exact O|split; [reflexivity|]]]); now apply report_says.
Qed.
Lemma wire_length h : length (packets nonce a n h) = length (sent h). Proof. apply map_length. Qed.
Lemma in_wire h t w : In (t, w) (packets nonce a n h) <-> exists k, In (t, NSent k) h /\ w = ping_wire nonce a n k.
Proof.
  unfold packets. rewrite in_map_iff. split.
  - intros ([t' k] & [= <- <-] & I). exists k. split; [now apply in_sent|reflexivity].
  - intros (k & I & ->). exists (t, k). split; [reflexivity|now apply in_sent].
Qed.

(** what the server says lies between what ndnping has received and sent *)
Theorem pair_counts b m ses : let r := ndnping (inr a) t0 es in let s := ndnpingserver (inr b) ses in
  ga_version a = false -> In (go_end r) [GExited 0; GExited 1] ->
  va_help b = false -> va_version b = false -> parse_name (va_prefix b) = Some m -> vo_end s = VExited 0 ->
  only_answers a n es (vo_sent s) -> only_pings (go_wire r) ses ->
  exists rx nk, says_at_end (uri n) (go_stdout r) (length (go_wire r)) rx nk /\ processed (uri m) (vo_stdout s) (length (vo_sent s)) /\
    (rx <= length (vo_sent s) <= length (go_wire r))%nat.
Proof.
  intros r s V E Vh Vv Em Vs OA [OP Nd]. destruct (ended_notes V E) as (h & P & O & W & Sa). fold r in W, Sa.
  pose proof (server_program_spec sign parse_name uri comp_uri server_usage server_version server_stamp start_error put_error (inr b) ses) as B. fold s in B.
  exists (length (data_seqs (measured h))), (length (nack_seqs (measured h))). rewrite W at 1. rewrite wire_length. split; [exact Sa|].
  destruct (behaves_success _ _ _ _ _ _ _ _ _ _ _ _ B Vh Vv Vs) as (_ & (front & m' & Em' & Out) & _). rewrite Em in Em'. injection Em' as <-.
  split; [exists front; exact Out|].
  pose proof (sent_nodup _ _ _ _ _ _ _ P (proj2 (proj2 Hp))) as N3. destruct (outs_nodup _ _ _ _ _ _ _ P) as [N1 N2].
  assert (Lt : forall k t, In (t, NSent k) h -> (k < 2 ^ 64)%N).
  { intros k t I. destruct (sent_can _ _ _ _ _ _ _ _ _ P I) as [_ (i & ->)]. apply number_lt. }
  set (names := fun l : list (Z * packet) => map (fun e => k_name (snd e)) l).
  split.
  - set (D := data_seqs (measured h)).
    assert (ND : NoDup D).
    { assert (Q : NoDup (settled_seqs (measured h))) by (rewrite measured_eq; exact (Permutation_NoDup (outs_perm h h) N1)).
      unfold settled_seqs in Q. fold D in Q. revert Q. generalize (nack_seqs (measured h) ++ timeout_seqs (measured h)). clear. intros l.
      induction D as [|x D IH]; intros Q; [constructor|]. cbn in Q. apply NoDup_cons_iff in Q as [Q1 Q2]. constructor; [|auto].
      intros I. apply Q1, in_or_app. now left. }
    assert (DS : forall k, In k D -> exists t t1, In (t, NData k) h /\ In (t1, NSent k) h).
    { intros k I. apply in_data in I as (t & I). assert (J : In k (outs h)) by (apply in_outs; exists t; now left).
      apply N2 in J. apply in_map_iff in J as ([t1 k'] & <- & J). apply in_sent in J. eauto. }
    rewrite <- (map_length (ping_name a n) D), <- (map_length (fun e => k_name (snd e)) (vo_sent s)). apply NoDup_incl_length.
    + apply nodup_map; [|exact ND]. intros x y I J Q. destruct (DS x I) as (? & ? & _ & Ix), (DS y J) as (? & ? & _ & Iy).
      apply ping_name_inj in Q; eauto.
    + intros nm I. apply in_map_iff in I as (k & <- & I). destruct (DS k I) as (t & t1 & I1 & I2).
      destruct (OA t k (pinging_data _ _ _ _ _ _ _ _ _ P I1)) as (t' & d & J & _ & <-). apply in_map_iff. exists (t', d). auto.
  - rewrite W, wire_length, <- (map_length snd (sent h)), <- (map_length (ping_name a n) (map snd (sent h))), <- (map_length (fun e => k_name (snd e)) (vo_sent s)).
    assert (Q : NoDup (map (fun e => k_name (snd e)) (vo_sent s)) /\ incl (map (fun e => k_name (snd e)) (vo_sent s)) (asked ses)).
    { inversion B; subst; cbn [vo_sent map]; try (split; [constructor|intros ? []]). eapply serving_names; eauto. }
    apply NoDup_incl_length; [apply Q|]. intros nm I. apply Q in I. apply in_asked in I as (t & i & I & <-).
    destruct (OP t i I) as (t' & w & J & _ & C). rewrite W in J. apply in_wire in J as (k & J & ->).
    destruct (sent_can _ _ _ _ _ _ _ _ _ P J) as [Cs _]. rewrite (carries_name nonce a n k i Ok Cs C).
    apply in_map. apply in_map_iff. exists (t', k). split; [reflexivity|now apply in_sent].
Qed.

(** everything arrives in time: ndnping succeeds *)
Theorem pair_succeeds b ses c : let r := ndnping (inr a) t0 es in let s := ndnpingserver (inr b) ses in
  ga_help a = false -> ga_version a = false -> face_error = false -> clock_fits (ga_interval a) -> clock_fits (ga_timeout a) ->
  ga_count a = Some c -> Z.of_nat (length (go_wire r)) = c ->
  (forall t what, ~ In (t, PhFails what) es) -> (forall t k code, ~ In (t, PhNack k code) es) ->
  serves parse_name start_error b n ses ->
  (forall i d, for_server n i -> reply b i d -> In (i_name i) (asked ses) -> short_enough sign d) ->
  all_arrive (go_wire r) ses -> all_return a n es (go_wire r) (vo_sent s) ->
  go_end r = GExited 0 /\ go_stderr r = [] /\ says_at_end (uri n) (go_stdout r) (Z.to_nat c) (Z.to_nat c) 0.
Proof.
  intros r s Hh V Fe F1 F2 Ec El NoF NoN [[B1 [B2 [B3 B4]]] [B5 [B6 [B7 B8]]] Alone Lim] Short Arr Ret.
  pose proof (gk_count _ _ _ Ac c Ec) as Hc.
  pose proof (ping_program_spec nonce parse_name uri usage version stamp word64 face_error send_error Hw (inr a) t0 es Hp (start_of a Hs)) as B.
  pose proof (server_program_spec sign parse_name uri comp_uri server_usage server_version server_stamp start_error put_error (inr b) ses) as SB.
  fold r in B. fold s in SB. clearbody r. clearbody s.
  inversion SB as [|? X|? ? X|? ? ? X|? ? ? ? X|? ? ? ? X X' Cm|? ? ? ? ? X ? ? ? X'|? m snt o e x ? ? ? X ? ? ? X' Sv]; subst; try congruence.
  { match goal with H : server_complaint _ _ |- _ => inversion H; lia end. }
  rewrite B4 in X. injection X as <-. cbn [vo_sent] in Ret.
  (* every ping sent is answered *)
  assert (Key : forall es1 es2 h, es = es1 ++ es2 -> pinging nonce a n first t0 es h -> go_wire r = packets nonce a n h -> forall t k, In (t, NSent k) h -> exists t2, In (t2, NData k) h).
  { intros _ _ h _ P W t k I. destruct (sent_can _ _ _ _ _ _ _ _ _ P I) as [Cs (j & Ej)].
    assert (Lk : (k < 2 ^ 64)%N) by (rewrite Ej; apply number_lt).
    assert (Iw : In (t, ping_wire nonce a n k) (go_wire r)) by (rewrite W; apply in_wire; eauto).
    destruct (Arr _ _ Iw) as (t' & i & Ii & _ & C). pose proof (carries_name nonce a n k i Ok Cs C) as En.
    assert (Fs : for_server n i) by (eexists; rewrite En; reflexivity).
    destruct (serving_all sign uri comp_uri server_stamp put_error b n 0 true ses snt o e x Sv Alone) with (t := t') (i := i) as (d & Id & Ed); auto.
    { intros t3 i3 d3 I3 Q1 Q2. apply (Short i3 d3 Q1 Q2). apply in_asked. eauto. }
    destruct (Ret t _ i k t' d Iw C Lk En Id Ed) as (t2 & J1 & J2).
    exact (answered _ _ _ _ _ _ _ _ _ _ P (proj1 (proj2 Hp)) (proj2 (proj2 Hp)) NoN I J1 J2). }
  inversion B as [|? X|? ? X|? mm ? ? X|? p ? ? Xp X|? ? ? ? ? X|? ? ? ? ? ? X|? n' ? ? ? Ac' ? ? ? Rn]; subst; try congruence; try tauto.
  { cbn in Hc. lia. }
  { exfalso. destruct (gk_prefix _ _ _ Ac) as (p' & E1 & E2). congruence. }
  apply same_name in Ac'. subst n'.
  assert (Fin : forall h, pinging nonce a n first t0 es h -> go_wire r = packets nonce a n h -> over a h /\ all_data h).
  { intros h P W. assert (Al : all_data h) by (intros t k I; exact (Key [] es h eq_refl P W t k I)). split; [|exact Al].
    split; [right; exists (Z.of_nat (length (go_wire r))); split; [exact Ec|rewrite W, wire_length; reflexivity]|].
    intros t k I. destruct (Al t k I) as (t2 & J). exists t2. now left. }
  inversion Rn as [h out P O Po|h out rep P O Po Rp Ad|h out rep P O Po Rp Ad|Ncs|es1 es2 t x0 what h out Ees P O Po Why]; subst r; cbn [go_wire go_end go_stderr go_stdout] in *.
  - destruct (Fin h P eq_refl) as [O' _]. contradiction.
  - split; [reflexivity|]. split; [reflexivity|]. rewrite wire_length, Nat2Z.id.
    pose proof (report_says h out rep P O Rp) as Sy. rewrite wire_length in *.
    assert (Nk : nack_seqs (measured h) = []).
    { destruct (nack_seqs (measured h)) as [|k l] eqn:Q; [reflexivity|exfalso]. assert (I : In k (nack_seqs (measured h))) by (rewrite Q; now left).
      unfold nack_seqs in I. apply in_flat_map in I as (y & I & J). rewrite measured_eq in I. apply in_flat_map in I as ([t y'] & I & I').
      destruct y'; cbn in I'; try tauto; destruct I' as [<-|[]]; cbn in J; try tauto. destruct J as [->|[]].
      exact (NoN _ _ _ (nack_note _ _ _ _ _ _ _ _ _ _ P I)). }
    assert (Tm : timeout_seqs (measured h) = []).
    { destruct (timeout_seqs (measured h)) as [|k l] eqn:Q; [reflexivity|exfalso]. 
      assert (Np : NoDup (settled_seqs (measured h))) by (rewrite measured_eq; exact (Permutation_NoDup (outs_perm h h) (proj1 (outs_nodup _ _ _ _ _ _ _ P)))).
      assert (I : In k (outs h)).
      { apply in_outs. apply in_settled. unfold settled_seqs. rewrite Q, !in_app_iff. right. right. now left. }
      apply (outs_nodup _ _ _ _ _ _ _ P) in I. apply in_map_iff in I as ([t k'] & <- & I). apply in_sent in I. cbn [snd] in *.
      destruct (Ad _ _ I) as (t2 & J). assert (J' : In k' (data_seqs (measured h))) by (apply in_data; eauto).
      unfold settled_seqs in Np. rewrite Nk, Q in Np. cbn [app] in Np. apply in_split in J' as (l1 & l2 & J'). rewrite J' in Np.
      rewrite <- app_assoc in Np. apply NoDup_remove_2 in Np. apply Np. rewrite !in_app_iff. right. right. now left. }
    pose proof (over_lengths h P O) as L. unfold settled_seqs in L. rewrite Nk, Tm, !app_length in L. cbn [length] in L.
    rewrite Nk in Sy. replace (length (data_seqs (measured h))) with (length (sent h)) in Sy by lia. exact Sy.
  - destruct (Fin h P eq_refl) as [_ O']. contradiction.
  - cbn in Hc. lia.
  - exfalso. destruct Why as [->|(_ & _ & _ & _ & Nc & _)].
    + apply (NoF t what). rewrite Ees. apply in_or_app. right. now left.
    + apply Nc. eexists. split; [exact Ec|]. rewrite wire_length. reflexivity.
Qed.
End Run.
End Both.
