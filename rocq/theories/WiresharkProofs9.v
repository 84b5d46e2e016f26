(** Proofs about the Wireshark dissector: link packets, several packets, parts of packets. *)
From Coq Require Import String.
From Verif Require Import Base BaseFacts TlvModel TlvProofs PingModel DumpModel WiresharkModel WiresharkSpec
  WiresharkProofs WiresharkProofs2 WiresharkProofs3 WiresharkProofs4 WiresharkProofs5 WiresharkProofs6 WiresharkProofs7
  WiresharkProofs8.
Open Scope Z_scope.

(** * Link packets *)
Lemma blocks_stack buf (P : element -> Prop) o es : (exists a c, buf = a ++ wires es ++ c /\ zlen a = o) ->
  Forall well_formed es -> Forall plain es -> Forall P es ->
  Forall (fun s => exists o e, fst s = block_of o e /\ at_ buf o e /\ well_formed e /\ plain e /\ P e)
    (rev (map (fun c => (c, false)) (blocks_of o es))).
Proof.
  intros HA W Pl HP. apply Forall_rev, Forall_map. cbn [fst]. rewrite blocks_located. apply Forall_map.
  pose proof (located_at buf es o HA) as L1. apply (located_Forall _ _ o) in W, Pl, HP.
  rewrite Forall_forall in *. intros x Hx. exists (fst x), (snd x). auto 6.
Qed.

Lemma note_other buf o e i r : note buf (block_of o e) (inner o e) i = Ok r ->
  e_type e <> 5%N -> e_type e <> 6%N -> e_type e <> 7%N -> e_type e <> 800%N -> r = i.
Proof.
  intros H H5 H6 H7 H8. apply note_type in H; [|exact H7]. destruct H as (A & _ & _ & _ & B). specialize (B H5 H6 H8).
  destruct r, i. cbn in *. congruence.
Qed.

Lemma info_link hdrs t n es post r :
  let q := Node t (name_element n :: es) in
  let p := Node 100 (hdrs ++ [Node 80 [q]]) in
  let buf := wire p ++ post in
  is_packet p -> quiet buf -> plain p -> t = 5%N \/ t = 6%N -> Forall header_ok hdrs -> ~ mentions 800 q ->
  dissector buf (len buf) = Some r -> r_end r = Finished ->
  exists u, name_uri n u /\
    (Exists (fun h => e_type h = 800%N) hdrs -> r_info r = Some (PtNack, u)) /\
    (Forall (fun h => ~ mentions 800 h) hdrs -> r_info r = Some (if (t =? 5)%N then PtInterest else PtData, u)).
Proof.
  intros q p buf HP HQ Pl Ht HH M H HE. pose proof (quiet_short _ HQ) as HS.
  destruct (info_of p post r HP HS H HE) as (f & i & F & EI).
  assert (A : at_ buf 0 p) by apply packet_at0. assert (W : well_formed p) by apply HP.
  assert (W1 : Forall well_formed (hdrs ++ [Node 80 [q]])) by (inversion W; assumption).
  assert (P1 : Forall plain (hdrs ++ [Node 80 [q]])) by (inversion Pl; assumption).
  unfold p in F. apply summarize_fresh_node in F; [|exact HS|now apply wf_types|exact A].
  destruct F as (i1 & i2 & N1 & [f1 F1] & N2).
  apply note_other in N1; [|discriminate..]. apply note_other in N2; [|discriminate..]. subst i1 i2.
  fold p in F1. set (o := 0 + zlen (header p)) in *.
  rewrite blocks_of_app, map_app, rev_app_distr in F1. cbn [blocks_of map rev app] in F1.
  set (o1 := o + zlen (wires hdrs)) in *.
  change ((block_of o1 (Node 80 [q]), false) :: rev (map (fun c => (c, false)) (blocks_of o hdrs)))
    with ([(block_of o1 (Node 80 [q]), false)] ++ rev (map (fun c => (c, false)) (blocks_of o hdrs))) in F1.
  apply summarize_app in F1. destruct F1 as ([ty u] & [f2 F2] & [f3 F3]).
  apply at_sub in A. fold o in A. destruct A as (a & c & EB & EA). fold p in EA. fold o in EA. rewrite wires_app, <- app_assoc in EB.
  assert (A1 : at_ buf o1 (Node 80 [q])).
  { exists (a ++ wires hdrs), c. rewrite EB, <- app_assoc, zlen_app, EA. split; [|reflexivity].
    unfold wires at 2. cbn [flat_map]. now rewrite app_nil_r. }
  apply Forall_app in W1, P1. destruct W1 as [WH W1], P1 as [PH P1]. apply Forall_cons_iff in W1, P1.
  destruct W1 as [WF _], P1 as [PF _].
  assert (WQ : well_formed q) by (inversion WF; match goal with H : Forall well_formed [q] |- _ => inversion H; assumption end).
  assert (PQ : plain q) by (inversion PF; match goal with H : Forall plain [q] |- _ => inversion H; assumption end).
  apply summarize_fresh_node in F2; [|exact HS|inversion WF; now apply wf_types|exact A1].
  destruct F2 as (j1 & j2 & N1 & [f4 F4] & N2).
  apply note_other in N1; [|discriminate..]. apply note_other in N2; [|discriminate..]. subst j1 j2.
  cbn [blocks_of map rev app] in F4. set (o2 := o1 + zlen (header (Node 80 [q]))) in *.
  assert (A2 : at_ buf o2 q).
  { apply at_sub in A1. destruct A1 as (a1 & c1 & E1 & Z1). fold o2 in Z1. exists a1, c1. split; [|auto].
    unfold wires in E1. cbn [flat_map] in E1. now rewrite app_nil_r in E1. }
  assert (NN : ty <> PtNack).
  { change ty with (fst (ty, u)). eapply not_nack; [exact HQ| | |exact F4]; [|discriminate].
    constructor; [|constructor]. exists o2, q. auto. }
  unfold q in F4. apply info_named in F4; [|exact HS|exact A2|exact WQ|destruct Ht; congruence].
  destruct F4 as (j2 & N2 & E2). apply note_type in N2; [|cbn; destruct Ht; congruence]. cbn [e_type fst snd] in N2.
  destruct N2 as (B1 & B5 & B6 & _).
  assert (T : ty = if (t =? 5)%N then PtInterest else PtData).
  { destruct Ht as [->| ->]; [|now apply B6]. specialize (B5 eq_refl). cbn. clear -B5 NN. destruct j2 as [k2 u2]. cbn in B5. destruct k2; try exact B5. congruence. }
  assert (HST : Forall (fun s => exists o e, fst s = block_of o e /\ at_ buf o e /\ well_formed e /\ plain e /\ header_ok e)
                  (rev (map (fun c => (c, false)) (blocks_of o hdrs)))).
  { apply blocks_stack; auto. exists a, (wires [Node 80 [q]] ++ c). auto. }
  exists u. split; [rewrite B1, E2; apply name_uri_ok|]. rewrite EI. destruct i as [ty' u'].
  destruct (headers_keep _ _ _ _ _ _ HQ HST F3) as [K1 K2]. cbn in K1, K2. subst u'. split; intros HX.
  - assert (EN : fst (ty', u) = PtNack); [|cbn in EN; congruence].
    eapply headers_nack; [exact HQ|exact HST| |exact F3].
    apply Exists_exists in HX. destruct HX as (h & Hin & HT). apply in_split in Hin. destruct Hin as (h1 & h2 & ->).
    rewrite blocks_of_app, map_app. cbn [blocks_of map]. apply Exists_exists.
    eexists. split; [apply -> in_rev; apply in_or_app; right; left; reflexivity|]. cbn [fst]. eauto.
  - destruct K2 as [K2|K2]; [congruence|]. exfalso.
    assert (HST' : Forall (fun s => exists o e, fst s = block_of o e /\ at_ buf o e /\ well_formed e /\ plain e /\ ~ mentions 800 e)
                  (rev (map (fun c => (c, false)) (blocks_of o hdrs)))).
    { apply (blocks_stack buf (fun e => ~ mentions 800 e)); auto. exists a, (wires [Node 80 [q]] ++ c). auto. }
    apply (not_nack buf f3 _ (ty, u) (ty', u) HQ HST' NN F3). exact K2.
Qed.

(** * Headers *)
Lemma getBlock_header a e x c : is_packet e ->
  getBlock (a ++ header e ++ x :: c) (LNum (zlen a)) = Ok (Some (block_of (zlen a) e)).
Proof.
  intros (W & HT & HL). unfold getBlock, header. rewrite <- !app_assoc.
  rewrite read_var_ok; [|lia|right; intros E; pose proof (var_number_nonempty (N.of_nat (length (payload e)))) as H;
    apply app_eq_nil in E; destruct E as [E _]; rewrite E in H; cbn in H; lia].
  cbn [bind]. destruct (Z.eqb_spec (zlen (var_number (e_type e))) 0) as [E|_].
  { pose proof (var_number_nonempty (e_type e)). unfold zlen in E. lia. }
  cbn [ladd]. rewrite (app_assoc a). rewrite <- zlen_app.
  rewrite read_var_ok; [|lia|right; discriminate].
  cbn [bind]. destruct (Z.eqb_spec (zlen (var_number (N.of_nat (length (payload e))))) 0) as [E|_].
  { pose proof (var_number_nonempty (N.of_nat (length (payload e)))). unfold zlen in E. lia. }
  unfold block_of. cbn [lval]. repeat f_equal. unfold zlen. lia.
Qed.

(** * A packet, and the beginning of another one *)
Lemma second_fails p q x rest r : is_packet p -> is_packet q ->
  let buf := wire p ++ header q ++ x :: rest in short buf ->
  dissector buf (len buf) = Some r ->
  r_end r = Failed /\ r_info r = None /\ r_deseg r = None /\
  exists items, r_trees r = [items].
Proof.
  intros HP HQ buf HS. unfold buf. rewrite dissect_packet by assumption. cbv zeta. fold buf. intros H.
  destruct (dissect_any buf (len buf) r) as (NE & _); [unfold buf; rewrite dissect_packet by assumption; exact H|].
  destruct (addTree buf (S (length buf)) [(block_of 0 p, None)] []) as [[[]| |] items]; [|injection H as <-; cbn in *; try congruence; eauto..].
  destruct (summarize buf (S (length buf + length buf)) [(block_of 0 p, false)] (PtNone, [])) as [i| |];
    [|injection H as <-; cbn in *; try congruence; eauto..].
  unfold after in H.
  assert (HL : zlen (header q ++ x :: rest) = zlen (header q) + zlen (x :: rest)) by apply zlen_app.
  assert (0 < zlen (x :: rest)) by (unfold zlen; cbn; lia). pose proof (header_pos q).
  destruct (Z.ltb_spec 0 (zlen (header q ++ x :: rest))); [|lia].
  replace (len buf - zlen (header q ++ x :: rest)) with (zlen (wire p)) in H by (unfold buf, len; rewrite app_length; unfold zlen; lia).
  unfold buf in H at 1. rewrite getBlock_header, packet_valid in H by assumption. injection H as <-. cbn. eauto.
Qed.

(** * Part of a packet *)
Lemma header_shape p : is_packet p -> exists t, (t = 5%N \/ t = 6%N \/ t = 100%N) /\
  ((exists l, header p = [t; l]) \/ exists a b, header p = [t; 253%N; a; b]).
Proof.
  intros (_ & HT & HL). exists (e_type p). split; [exact HT|]. unfold header.
  assert (E : var_number (e_type p) = [e_type p]) by (destruct HT as [-> | [-> | ->]]; reflexivity). rewrite E. cbn [app].
  unfold var_number. destruct (N.ltb_spec (N.of_nat (length (payload p))) 253); [left; eauto|right].
  destruct (N.ltb_spec (N.of_nat (length (payload p))) 65536); [|lia].
  pose proof (be_length 2 (N.of_nat (length (payload p)))) as B. destruct (be 2 _) as [|a [|b [|]]]; try discriminate. eauto.
Qed.

Lemma part_recognised p k : is_packet p -> (length (header p) < k < length (wire p))%nat ->
  dissector (firstn k (wire p)) (Z.of_nat k) = Some (Result [] (Some (PtNone, [])) (Some 0) Finished).
Proof.
  intros HP HK. rewrite wire_eq in *. rewrite app_length in HK. rewrite firstn_app, firstn_all2 by lia.
  destruct (payload p) as [|x l] eqn:EP; [cbn in HK; lia|].
  destruct (k - length (header p))%nat as [|m] eqn:EM; [lia|]. cbn [firstn].
  set (buf := header p ++ x :: firstn m l).
  assert (HL : len buf = Z.of_nat k).
  { unfold buf, len. rewrite app_length. cbn [length] in *. rewrite firstn_length. lia. }
  unfold dissector. rewrite HL, Z.eqb_refl. cbn [negb].
  assert (LB : length buf = k) by (unfold len in HL; lia). rewrite LB.
  pose proof (header_pos p) as H2. unfold zlen in H2.
  destruct k as [|k']; [lia|]. cbn [findNdnPacket]. rewrite HL.
  destruct (Z.ltb_spec (0 + 2) (Z.of_nat (S k'))); [|lia].
  assert (G : getBlock buf (LNum 0) = Ok (Some (block_of 0 p))) by exact (getBlock_header [] p x (firstn m l) HP).
  rewrite G, packet_valid by assumption. change (b_off (block_of 0 p)) with 0. rewrite Z.sub_0_r.
  assert (HW : Z.of_nat (S k') < zlen (wire p)).
  { rewrite wire_len, EP. unfold zlen. lia. }
  rewrite packets_large by (rewrite block_size; exact HW). unfold finish. rewrite block_size, HL. cbn [lval].
  destruct (Z.ltb_spec 0 (Z.of_nat (S k'))); [|lia]. destruct (Z.ltb_spec (Z.of_nat (S k')) (zlen (wire p))); [|lia].
  cbn [andb]. now rewrite Z.sub_diag.
Qed.

Lemma part_ignored p k : is_packet p -> (k <= length (header p))%nat -> dissector (firstn k (wire p)) (Z.of_nat k) = None.
Proof.
  intros HP HK. rewrite wire_eq, firstn_app. replace (k - length (header p))%nat with 0%nat by lia. cbn [firstn]. rewrite app_nil_r.
  destruct (header_shape p HP) as (t & HT & [[l E]|(a & b & E)]); rewrite E in *; cbn [length] in HK.
  - destruct k as [|[|[|]]]; [reflexivity..|lia].
  - destruct k as [|[|[|[|[|]]]]]; [reflexivity..| | |lia]; destruct HT as [-> | [-> | ->]]; reflexivity.
Qed.

Lemma truncated buf reported : len buf <> reported -> dissector buf reported = None.
Proof. intros H. unfold dissector. destruct (Z.eqb_spec (len buf) reported); [contradiction|reflexivity]. Qed.

(** * Items of elements *)
Lemma displayed_list items par : forall es o e, displays_list items par o es -> In e es -> exists o', displays items par o' e.
Proof.
  induction es as [|c es IH]; intros o e H Hin; [destruct Hin|]. inversion H; subst.
  destruct Hin as [->|Hin]; eauto.
Qed.
Lemma displayed items e : forall p par o, displays items par o p -> inside e p ->
  exists it, In it items /\ it_type it = LNum (Z.of_N (e_type e)) /\ labelled it e.
Proof.
  induction p as [t v|t es IH] using element_ind'; intros par o H HI.
  - inversion HI; subst. inversion H; subst. exists it. cbn. eauto using nth_error_In.
  - inversion H; subst. inversion HI as [|t' es' c Hin Hc]; subst.
    + exists it. cbn. eauto using nth_error_In.
    + rewrite Forall_forall in IH. match goal with D : displays_list _ _ _ es |- _ => destruct (displayed_list _ _ _ _ _ D Hin) as [o' Ho] end.
      eapply IH; eauto.
Qed.

(** * For examples *)
Lemma beyond_opaque x y rest : (x < 253)%N -> (y < 253)%N -> (N.of_nat (length rest) < y)%N -> opaque (x :: y :: rest).
Proof.
  intros Hx Hy HR. right. intros H. inversion H as [|t bt bl v r Ht Hl Hr E]; subst.
  inversion Ht; subst; cbn in E; try (injection E as E; lia). injection E as -> E.
  inversion Hl; subst; cbn in E; try (injection E as E; lia). injection E as <- E.
  rewrite <- E, app_length in HR. lia.
Qed.
Lemma one_opaque x : opaque [x].
Proof.
  right. intros H. inversion H as [|t bt bl v r Ht Hl Hr E]; subst.
  assert (L : length (bt ++ bl ++ v ++ r) = 1%nat) by (now rewrite E).
  rewrite !app_length in L. inversion Ht; subst; cbn in L; inversion Hl; subst; cbn in L; lia.
Qed.
Lemma calm l : Forall (fun x => x < 255)%N l -> zlen l < 65536 -> unambiguous l.
Proof.
  intros H HL. repeat split; [|exact HL|].
  - eapply Forall_impl; [|exact H]. unfold is_byte. intros; lia.
  - intros (a & b & x & _ & ->). apply Forall_app in H. destruct H as [_ H]. inversion H. lia.
Qed.
Lemma calm_ok l : forallb (fun x => x <? 255)%N l = true -> (zlen l <? 65536) = true -> unambiguous l.
Proof.
  intros H HL. apply calm; [|lia]. apply Forall_forall. intros x Hx. rewrite forallb_forall in H. apply H in Hx. lia.
Qed.
