(** Proofs about the Wireshark dissector: packets, and the "Info" column. *)
From Coq Require Import String.
From Verif Require Import Base BaseFacts TlvModel TlvProofs PingModel DumpModel WiresharkModel WiresharkSpec
  WiresharkProofs WiresharkProofs2 WiresharkProofs3 WiresharkProofs4 WiresharkProofs5 WiresharkProofs6 WiresharkProofs7.
Open Scope Z_scope.

Lemma after_finished buf items i left b : r_end (after buf items i left b) = Finished -> r_info (after buf items i left b) = Some i.
Proof.
  unfold after. destruct (0 <? left); [|reflexivity].
  destruct (getBlock buf _) as [[b'|]| |]; try reflexivity.
  destruct (canBeValidNdnPacket b'); [discriminate|reflexivity].
Qed.

(** * The tree of a packet *)
Lemma tree_shown p post r : is_packet p -> short (wire p ++ post) ->
  dissector (wire p ++ post) (len (wire p ++ post)) = Some r ->
  exists items, r_trees r = [items] /\ (r_end r = Finished -> displays items None 0 p).
Proof.
  intros HP HS. rewrite dissect_packet by assumption. cbv zeta. intros H.
  set (buf := wire p ++ post) in *.
  destruct (addTree buf (S (length buf)) [(block_of 0 p, None)] []) as [e items] eqn:ET.
  exists items.
  destruct e as [[]| |]; [|injection H as <-; split; [reflexivity|discriminate]..].
  assert (HD : displays items None 0 p).
  { destruct (addTree_displays buf HS _ _ _ _ ET) as [_ D]. apply D; [now left|apply HP|apply packet_at0]. }
  destruct (summarize buf (S (length buf + length buf)) [(block_of 0 p, false)] (PtNone, [])) as [i| |];
    injection H as <-; (split; [|auto]); try reflexivity. apply after_end.
Qed.

(** * Packets whose values do not look like elements *)
Definition stack_ok (buf : list N) (s : block * bool) : Prop :=
  exists o e, fst s = block_of o e /\ at_ buf o e /\ well_formed e /\ plain e.

Lemma kids_ok buf o e cs : at_ buf o e -> well_formed e -> plain e -> inner o e = Some cs ->
  Forall (fun c => exists o' e', c = block_of o' e' /\ at_ buf o' e' /\ well_formed e' /\ plain e' /\
                    exists t es, e = Node t es /\ In e' es) cs.
Proof.
  intros A W P H. destruct e as [t v|t es].
  - destruct v; [|discriminate]. injection H as <-. constructor.
  - injection H as <-. inversion W; inversion P; subst. rewrite blocks_located. apply Forall_map.
    pose proof (located_at buf es _ (at_sub _ _ _ _ A)) as L1.
    set (o' := o + zlen (header (Node t es))) in *.
    assert (L2 : Forall (fun p => In (snd p) es) (located o' es)) by (apply (located_Forall (fun e => In e es)), Forall_forall; auto).
    rewrite Forall_forall in *. intros x Hx. exists (fst x), (snd x). repeat split; auto. eauto.
Qed.

Lemma note_plain buf o e i : at_ buf o e -> exists i', note buf (block_of o e) (inner o e) i = Ok i'.
Proof.
  intros A. unfold note. destruct i as [ty nm].
  destruct (uri_at buf o e A) as [u Hu]. rewrite Hu. cbn [bind].
  destruct (lis (b_type (block_of o e)) 7); eauto.
Qed.

(** [P] holds for what the elements inside are *)
Definition inherited (P : element -> Prop) : Prop := forall t es e, P (Node t es) -> In e es -> P e.

(** induction over the visits of plain elements *)
Lemma summarize_ind buf (P : element -> Prop) (I : pkt_type * text -> Prop) : quiet buf -> inherited P ->
  (forall o e i i', at_ buf o e -> P e -> I i -> note buf (block_of o e) (inner o e) i = Ok i' -> I i') ->
  forall fuel stack i,
  Forall (fun s => exists o e, fst s = block_of o e /\ at_ buf o e /\ well_formed e /\ plain e /\ P e) stack -> I i ->
  match summarize buf fuel stack i with Ok i' => I i' | LuaError => False | NoFuel => True end.
Proof.
  intros HQ HP HI. induction fuel as [|fuel IH]; intros [|[b v] stack] i HF Hi; cbn [summarize]; auto.
  apply Forall_cons_iff in HF. destruct HF as [(o & e & E & A & W & Pl & Pe) HF']. cbn [fst] in E. subst b.
  rewrite (sub_plain _ _ _ HQ W Pl A). cbn [bind].
  destruct (note_plain buf o e i A) as [i' Ei]. rewrite Ei. cbn [bind].
  pose proof (HI _ _ _ _ A Pe Hi Ei) as Hi'.
  destruct (inner o e) as [cs|] eqn:EC; [|apply IH; assumption].
  destruct v; [apply IH; assumption|]. apply IH; [|exact Hi'].
  apply Forall_app. split.
  - apply Forall_rev, Forall_map. cbn [fst]. pose proof (kids_ok _ _ _ _ A W Pl EC) as K.
    eapply Forall_impl; [|exact K]. cbn. intros c (o' & e' & E & A' & W' & P' & t & es & -> & Hin).
    exists o', e'. repeat split; auto. eapply HP; eauto.
  - constructor; [|exact HF']. cbn [fst]. exists o, e. auto.
Qed.

Lemma summarize_ok buf p : quiet buf -> at_ buf 0 p -> well_formed p -> plain p -> zlen (wire p) <= len buf ->
  exists i, summarize buf (S (length buf + length buf)) [(block_of 0 p, false)] (PtNone, []) = Ok i.
Proof.
  intros HQ A W P HL.
  pose proof (summarize_ind buf (fun _ => True) (fun _ => True) HQ) as H.
  specialize (H ltac:(intros ? ? ? ? ?; exact I) ltac:(intros; exact I) (S (length buf + length buf)) [(block_of 0 p, false)] (PtNone, [])).
  assert (HF : Forall (fun s => exists o e, fst s = block_of o e /\ at_ buf o e /\ well_formed e /\ plain e /\ True) [(block_of 0 p, false)]).
  { constructor; [|constructor]. exists 0, p. cbn. auto. }
  specialize (H HF I).
  assert (HT : type_ok32 p) by (inversion W; assumption).
  pose proof (summarize_ends buf (S (length buf + length buf)) [(block_of 0 p, false)] (PtNone, [])) as HE.
  assert (HE' : summarize buf (S (length buf + length buf)) [(block_of 0 p, false)] (PtNone, []) <> NoFuel).
  { apply HE. constructor; [|constructor]. cbn. apply block_real; auto using quiet_short.
    cbn [weights]. unfold weight. cbn [fst snd]. unfold size_of. rewrite block_size. cbn [lval]. unfold len in HL. lia. }
  destruct (summarize buf (S (length buf + length buf)) [(block_of 0 p, false)] (PtNone, [])) as [i| |]; [eauto|destruct H|congruence].
Qed.

Lemma packet_len p post : zlen (wire p) <= len (wire p ++ post).
Proof. unfold len, zlen. rewrite app_length. lia. Qed.

(** exactly the elements of the packet are shown *)
Lemma plain_shown p post : is_packet p -> plain p -> quiet (wire p ++ post) ->
  exists items i, shows_exactly items p /\
    summarize (wire p ++ post) (S (length (wire p ++ post) + length (wire p ++ post))) [(block_of 0 p, false)] (PtNone, []) = Ok i /\
    dissector (wire p ++ post) (len (wire p ++ post)) = Some (after (wire p ++ post) items i (zlen post) (block_of 0 p)).
Proof.
  intros HP Pl HQ. rewrite dissect_packet by auto using quiet_short. cbv zeta. set (buf := wire p ++ post) in *.
  assert (A : at_ buf 0 p) by apply packet_at0. assert (W : well_formed p) by apply HP.
  destruct (addTree_plain buf HQ (S (length buf)) [(0, p, None)] []) as (out & EO & LO).
  { constructor; [|constructor]. repeat split; assumption. }
  { unfold entries_count. cbn [map fst snd list_sum fold_right]. pose proof (elements_bound p). pose proof (packet_len p post) as L.
    fold buf in L. unfold len in L. lia. }
  change (map entry_of [(0, p, None)]) with [(block_of 0 p, @None nat)] in EO. rewrite EO.
  destruct (summarize_ok buf p HQ A W Pl (packet_len p post)) as [i Hi]. rewrite Hi.
  exists out, i. repeat split; auto.
  - destruct (addTree_displays buf (quiet_short _ HQ) _ _ _ _ EO) as [_ D]. apply D; [now left|assumption..].
  - rewrite LO. unfold entries_count. cbn. lia.
Qed.

Lemma plain_alone p : is_packet p -> plain p -> quiet (wire p) ->
  exists r items, dissector (wire p) (len (wire p)) = Some r /\ r_trees r = [items] /\ shows_exactly items p /\
    r_end r = Finished /\ r_deseg r = None.
Proof.
  intros HP Pl HQ. rewrite <- (app_nil_r (wire p)) in HQ. destruct (plain_shown p [] HP Pl HQ) as (items & i & A & _ & B).
  rewrite (app_nil_r (wire p)) in B. eexists. exists items. split; [exact B|]. cbn. auto.
Qed.

(** * The "Info" column *)
Lemma summarize_app buf : forall fuel s1 s2 i r, summarize buf fuel (s1 ++ s2) i = Ok r ->
  exists i', (exists f, summarize buf f s1 i = Ok i') /\ exists f, summarize buf f s2 i' = Ok r.
Proof.
  induction fuel as [|fuel IH]; intros [|[b v] s1] s2 i r H.
  - exists i. split; [exists O; reflexivity|exists O; exact H].
  - discriminate.
  - exists i. split; [exists O; reflexivity|eauto].
  - cbn [app summarize] in H.
    destruct (getSubBlocks buf b) as [els| |] eqn:E1; [|discriminate..]. cbn [bind] in H.
    destruct (note buf b els i) as [i1| |] eqn:E2; [|discriminate..]. cbn [bind] in H.
    assert (K : exists s1', summarize buf fuel (s1' ++ s2) i1 = Ok r /\
              forall f, summarize buf (S f) ((b, v) :: s1) i = summarize buf f s1' i1).
    { destruct els as [cs|]; [destruct v|].
      - exists s1. split; [exact H|]. intros f. cbn [summarize]. rewrite E1. cbn [bind]. rewrite E2. reflexivity.
      - exists (rev (map (fun c => (c, false)) cs) ++ (b, true) :: s1). rewrite <- app_assoc. split; [exact H|].
        intros f. cbn [summarize]. rewrite E1. cbn [bind]. rewrite E2. reflexivity.
      - exists s1. split; [exact H|]. intros f. cbn [summarize]. rewrite E1. cbn [bind]. rewrite E2. reflexivity. }
    destruct K as (s1' & K1 & K2). apply IH in K1. destruct K1 as (i' & [f1 F1] & F2).
    exists i'. split; [|exact F2]. exists (S f1). now rewrite K2.
Qed.

Lemma summarize_fresh_node buf f o t es i r : short buf -> Forall type_ok32 es -> at_ buf o (Node t es) ->
  summarize buf f [(block_of o (Node t es), false)] i = Ok r ->
  exists i1 i2, note buf (block_of o (Node t es)) (inner o (Node t es)) i = Ok i1 /\
    (exists f', summarize buf f' (rev (map (fun c => (c, false)) (blocks_of (o + zlen (header (Node t es))) es))) i1 = Ok i2) /\
    note buf (block_of o (Node t es)) (inner o (Node t es)) i2 = Ok r.
Proof.
  intros HS HT A H. destruct f as [|f]; [discriminate|]. cbn [summarize] in H.
  rewrite (sub_node buf o t es HS HT A) in H. cbn [bind] in H.
  change (Some (blocks_of (o + zlen (header (Node t es))) es)) with (inner o (Node t es)) in H.
  destruct (note buf (block_of o (Node t es)) (inner o (Node t es)) i) as [i1| |] eqn:E; [|discriminate..]. cbn [bind inner] in H.
  apply summarize_app in H. destruct H as (i2 & F1 & f2 & F2).
  exists i1, i2. split; [reflexivity|]. split; [exact F1|].
  destruct f2 as [|f2]; [discriminate|]. cbn [summarize] in F2. rewrite (sub_node buf o t es HS HT A) in F2. cbn [bind] in F2.
  change (Some (blocks_of (o + zlen (header (Node t es))) es)) with (inner o (Node t es)) in F2.
  destruct (note buf (block_of o (Node t es)) (inner o (Node t es)) i2) as [i3| |]; [|discriminate..]. cbn [bind inner] in F2.
  destruct f2; exact F2.
Qed.

(** the name comes first, and is read last *)
Lemma info_named buf f o t n es i r : short buf -> at_ buf o (Node t (name_element n :: es)) ->
  well_formed (Node t (name_element n :: es)) -> t <> 7%N ->
  summarize buf f [(block_of o (Node t (name_element n :: es)), false)] i = Ok r ->
  exists i2, note buf (block_of o (Node t (name_element n :: es))) (inner o (Node t (name_element n :: es))) i2 = Ok r /\
    snd i2 = name_text n.
Proof.
  intros HS A W Ht H.
  assert (HT : Forall type_ok32 (name_element n :: es)) by (inversion W; now apply wf_types).
  apply summarize_fresh_node in H; auto. destruct H as (i1 & i2 & N1 & [f1 F1] & N2).
  exists i2. split; [exact N2|]. cbn [blocks_of map rev] in F1. apply summarize_app in F1.
  destruct F1 as (i3 & _ & f2 & F2).
  set (o1 := o + zlen (header (Node t (name_element n :: es)))) in *.
  assert (A1 : at_ buf o1 (name_element n)).
  { apply at_sub in A. destruct A as (a & c & E & EA). exists a, (wires es ++ c). fold o1 in EA. rewrite wires_cons, <- app_assoc in E. auto. }
  assert (W1 : well_formed (name_element n)) by (inversion W; subst; match goal with H : Forall well_formed (_ :: _) |- _ => inversion H; assumption end).
  unfold name_element in F2, A1, W1.
  apply summarize_fresh_node in F2; [|exact HS|inversion W1; now apply wf_types|exact A1].
  destruct F2 as (i4 & i5 & _ & _ & N5). unfold note in N5. destruct i5 as [ty nm].
  cbn [block_of b_type e_type] in N5. change (lis (LNum (Z.of_N 7)) 7) with true in N5. cbn match in N5.
  cbn [inner] in N5. rewrite uri_node in N5 by exact A1. cbn [bind] in N5. injection N5 as <-. cbn [snd].
  unfold name_text. rewrite map_map. reflexivity.
Qed.

Lemma note_type buf o e i r : note buf (block_of o e) (inner o e) i = Ok r -> e_type e <> 7%N ->
  snd r = snd i /\
  (e_type e = 5%N -> fst r = match fst i with PtNack => PtNack | _ => PtInterest end) /\
  (e_type e = 6%N -> fst r = PtData) /\
  (e_type e = 800%N -> fst r = PtNack) /\
  (e_type e <> 5%N -> e_type e <> 6%N -> e_type e <> 800%N -> fst r = fst i).
Proof.
  unfold note. destruct i as [ty nm]. change (b_type (block_of o e)) with (LNum (Z.of_N (e_type e))).
  change 5 with (Z.of_N 5). change 6 with (Z.of_N 6). change 800 with (Z.of_N 800). change 7 with (Z.of_N 7). rewrite !lis_N.
  intros H H7. destruct (N.eqb_spec (e_type e) 7); [congruence|]. injection H as <-. cbn [fst snd].
  destruct (N.eqb_spec (e_type e) 5) as [E5|E5]; [|destruct (N.eqb_spec (e_type e) 6) as [E6|E6];
    [|destruct (N.eqb_spec (e_type e) 800) as [E8|E8]]]; destruct ty; cbn [andb negb];
    try (destruct (N.eqb_spec (e_type e) 6)); try (destruct (N.eqb_spec (e_type e) 800)); repeat split; intros; congruence.
Qed.

(** the summary is made of the state after the packet's tree is there *)
Lemma info_of p post r : is_packet p -> short (wire p ++ post) ->
  dissector (wire p ++ post) (len (wire p ++ post)) = Some r -> r_end r = Finished ->
  exists f i, summarize (wire p ++ post) f [(block_of 0 p, false)] (PtNone, []) = Ok i /\ r_info r = Some i.
Proof.
  intros HP HS. rewrite dissect_packet by assumption. cbv zeta. set (buf := wire p ++ post) in *. intros H HE.
  destruct (addTree buf (S (length buf)) [(block_of 0 p, None)] []) as [[[]| |] items];
    [|injection H as <-; discriminate..].
  destruct (summarize buf (S (length buf + length buf)) [(block_of 0 p, false)] (PtNone, [])) as [i| |] eqn:E;
    injection H as <-; try discriminate.
  exists (S (length buf + length buf)), i. split; [exact E|]. now apply after_finished.
Qed.

Lemma info_data n es post r : is_packet (Node 6 (name_element n :: es)) ->
  let buf := wire (Node 6 (name_element n :: es)) ++ post in short buf ->
  dissector buf (len buf) = Some r -> r_end r = Finished ->
  exists u, r_info r = Some (PtData, u) /\ name_uri n u.
Proof.
  intros HP buf HS H HE. destruct (info_of _ _ _ HP HS H HE) as (f & i & F & ->).
  apply info_named in F; [|exact HS|apply packet_at0|apply HP|discriminate].
  destruct F as (i2 & N2 & E2). apply note_type in N2; [|discriminate]. destruct N2 as (A & _ & B & _).
  exists (name_text n). split; [|apply name_uri_ok]. f_equal. destruct i as [ty u]. cbn in *. f_equal; [now apply B|congruence].
Qed.

Lemma info_interest n es post r : is_packet (Node 5 (name_element n :: es)) ->
  let buf := wire (Node 5 (name_element n :: es)) ++ post in short buf ->
  dissector buf (len buf) = Some r -> r_end r = Finished ->
  exists ty u, r_info r = Some (ty, u) /\ name_uri n u /\ (ty = PtInterest \/ ty = PtNack).
Proof.
  intros HP buf HS H HE. destruct (info_of _ _ _ HP HS H HE) as (f & i & F & ->).
  apply info_named in F; [|exact HS|apply packet_at0|apply HP|discriminate].
  destruct F as (i2 & N2 & E2). apply note_type in N2; [|discriminate]. destruct N2 as (A & B & _).
  destruct i as [ty u]. cbn in *. exists ty, u. split; [reflexivity|]. split.
  - rewrite A, E2. apply name_uri_ok.
  - specialize (B eq_refl). destruct (fst i2); auto.
Qed.

(** without elements of type 800, nothing is taken for a Nack *)
Lemma inherited_free t : inherited (fun e => ~ mentions t e).
Proof. intros t' es e H Hin K. apply H. eapply mentions_inside; eauto. Qed.
Lemma free_type t e : ~ mentions t e -> e_type e <> t.
Proof. intros H E. apply H. now constructor. Qed.

Lemma not_nack buf fuel stack i r : quiet buf ->
  Forall (fun s => exists o e, fst s = block_of o e /\ at_ buf o e /\ well_formed e /\ plain e /\ ~ mentions 800 e) stack ->
  fst i <> PtNack -> summarize buf fuel stack i = Ok r -> fst r <> PtNack.
Proof.
  intros HQ HF Hi H. pose proof (summarize_ind buf _ (fun i => fst i <> PtNack) HQ (inherited_free 800)) as K.
  assert (HS : forall o e i i', at_ buf o e -> ~ mentions 800 e -> fst i <> PtNack ->
     note buf (block_of o e) (inner o e) i = Ok i' -> fst i' <> PtNack).
  { clear. intros o e i i' A M Hi N. destruct (N.eq_dec (e_type e) 7) as [E|E].
    - destruct (uri_at buf o e A) as [u Hu]. unfold note in N. destruct i as [ty nm].
      change (b_type (block_of o e)) with (LNum (Z.of_N (e_type e))) in N. rewrite E, Hu in N. cbn in N. injection N as <-. exact Hi.
    - apply note_type in N; [|exact E]. destruct N as (_ & A1 & A2 & _ & A4). apply free_type in M.
      destruct (N.eq_dec (e_type e) 5) as [E5|E5]; [rewrite (A1 E5); destruct (fst i); congruence|].
      destruct (N.eq_dec (e_type e) 6) as [E6|E6]; [rewrite (A2 E6); congruence|]. rewrite A4; auto. }
  specialize (K HS fuel stack i HF Hi). rewrite H in K. exact K.
Qed.

Lemma info_plain_interest n es post r : is_packet (Node 5 (name_element n :: es)) ->
  let p := Node 5 (name_element n :: es) in
  let buf := wire p ++ post in quiet buf -> plain p -> ~ mentions 800 p ->
  dissector buf (len buf) = Some r -> r_end r = Finished ->
  exists u, r_info r = Some (PtInterest, u) /\ name_uri n u.
Proof.
  intros HP p buf HQ Pl M H HE. destruct (info_interest n es post r HP (quiet_short _ HQ) H HE) as (ty & u & E & U & T).
  exists u. split; [|exact U]. destruct T as [->|T]; [exact E|]. exfalso.
  destruct (info_of p post r HP (quiet_short _ HQ) H HE) as (f & i & F & EI). rewrite EI in E.
  assert (K : fst i <> PtNack); [|apply K; injection E as ->; exact T].
  eapply not_nack; [exact HQ| | |exact F]; [|discriminate].
  constructor; [|constructor]. exists 0, p. cbn [fst]. repeat split; auto; [apply packet_at0|apply HP].
Qed.

(** * Link packets *)
(** the headers of a link packet do not change the name *)
Definition header_ok (e : element) : Prop := ~ mentions 5 e /\ ~ mentions 6 e /\ ~ mentions 7 e.
Lemma inherited_header : inherited header_ok.
Proof. intros t es e (A & B & C) Hin. repeat split; eapply inherited_free; eauto. Qed.

Lemma headers_keep buf fuel stack ty u r : quiet buf ->
  Forall (fun s => exists o e, fst s = block_of o e /\ at_ buf o e /\ well_formed e /\ plain e /\ header_ok e) stack ->
  summarize buf fuel stack (ty, u) = Ok r -> snd r = u /\ (fst r = ty \/ fst r = PtNack).
Proof.
  intros HQ HF H.
  pose proof (summarize_ind buf _ (fun i => snd i = u /\ (fst i = ty \/ fst i = PtNack)) HQ inherited_header) as K.
  assert (HS : forall o e i i', at_ buf o e -> header_ok e -> snd i = u /\ (fst i = ty \/ fst i = PtNack) ->
     note buf (block_of o e) (inner o e) i = Ok i' -> snd i' = u /\ (fst i' = ty \/ fst i' = PtNack)).
  { clear. intros o e i i' A (M5 & M6 & M7) [I1 I2] N. apply free_type in M5, M6, M7.
    apply note_type in N; [|exact M7]. destruct N as (B1 & _ & _ & B4 & B5). split; [congruence|].
    destruct (N.eq_dec (e_type e) 800) as [E|E]; [right; auto|]. rewrite B5; auto. }
  specialize (K HS fuel stack (ty, u) HF (conj eq_refl (or_introl eq_refl))). rewrite H in K. exact K.
Qed.

Lemma headers_nack buf fuel stack u r : quiet buf ->
  Forall (fun s => exists o e, fst s = block_of o e /\ at_ buf o e /\ well_formed e /\ plain e /\ header_ok e) stack ->
  Exists (fun s => exists o e, fst s = block_of o e /\ e_type e = 800%N) stack -> forall ty,
  summarize buf fuel stack (ty, u) = Ok r -> fst r = PtNack.
Proof.
  intros HQ HF HE ty H. apply Exists_exists in HE. destruct HE as ([b v] & Hin & o & e & E & T). cbn [fst] in E. subst b.
  apply in_split in Hin. destruct Hin as (s1 & s2 & ->). apply Forall_app in HF. destruct HF as [F1 F2].
  apply Forall_cons_iff in F2. destruct F2 as [(o' & e' & E' & A' & W' & P' & H') F2']. cbn [fst] in E'.
  apply summarize_app in H. destruct H as ([ty1 u1] & _ & f2 & H). change ((block_of o e, v) :: s2) with ([(block_of o e, v)] ++ s2) in H.
  apply summarize_app in H. destruct H as ([ty2 u2] & [f3 H3] & [f4 H4]).
  assert (ET : e_type e' = 800%N). { injection E' as _ E'. lia. }
  rewrite E' in H3.
  assert (ty2 = PtNack) as ->; [|apply headers_keep in H4; [destruct H4 as [_ [?|?]]; assumption|exact HQ|exact F2']].
  destruct f3 as [|f3]; [discriminate|]. cbn [summarize] in H3. rewrite (sub_plain _ _ _ HQ W' P' A') in H3. cbn [bind] in H3.
  destruct (note buf (block_of o' e') (inner o' e') (ty1, u1)) as [[ty3 u3]| |] eqn:EN; [|discriminate..].
  apply note_type in EN; [|congruence]. destruct EN as (_ & _ & _ & EN & _). specialize (EN ET). cbn in EN. subst ty3. cbn [bind] in H3.
  assert (K : exists f s, summarize buf f s (PtNack, u3) = Ok (ty2, u2) /\
     Forall (fun s => exists o e, fst s = block_of o e /\ at_ buf o e /\ well_formed e /\ plain e /\ header_ok e) s).
  { destruct (inner o' e') as [cs|] eqn:EC; [destruct v|]; try (exists f3, []; split; [exact H3|constructor]).
    eexists f3, _. split; [exact H3|]. apply Forall_app. split.
    - apply Forall_rev, Forall_map. cbn [fst]. pose proof (kids_ok _ _ _ _ A' W' P' EC) as K.
      eapply Forall_impl; [|exact K]. cbn. intros c (o1 & e1 & E1 & A1 & W1 & P1 & t & es & -> & Hin).
      exists o1, e1. repeat split; auto; eapply inherited_free; eauto; apply H'.
    - constructor; [|constructor]. exists o', e'. auto. }
  destruct K as (f & s & K1 & K2). apply headers_keep in K1; [|exact HQ|exact K2]. cbn in K1. destruct K1 as [_ [K1|K1]]; congruence.
Qed.
