(** Proofs about the summaries of the Wireshark dissector: what they say. *)
From Coq Require Import String.
From Verif Require Import Base BaseFacts TlvModel TlvProofs PingModel DumpModel WiresharkModel WiresharkSpec
  WiresharkProofs WiresharkProofs2 WiresharkProofs3 WiresharkProofs4 WiresharkProofs5 WiresharkProofs6 WiresharkProofs7 WiresharkProofs8
  WiresharkSummaryModel WiresharkSummarySpec WiresharkSummaryShape WiresharkSummaryProofs.
Open Scope nat_scope.
Open Scope list_scope.

Lemma concat_joined l : concat_comma l = joined l.
Proof.
  destruct l as [|a l]; [reflexivity|]. revert a. induction l as [|b l IH]; intros a; [cbn; now rewrite app_nil_r|].
  change (concat_comma (a :: b :: l)) with (a ++ str ", " ++ concat_comma (b :: l)). rewrite IH.
  unfold joined. cbn [flat_map]. now rewrite <- app_assoc.
Qed.

Lemma dict_name_nonempty z en : ndn_dict z = Some en -> e_name en <> ""%string.
Proof.
  destruct z as [z|z]; [|discriminate]. unfold ndn_dict. destruct z as [|p|p]; [discriminate| |discriminate]. intros H.
  do 10 (try (destruct p as [p|p|]; try discriminate H)).
  all: injection H as <-; discriminate.
Qed.

Lemma has_summary_true t : has_summary t = true -> exists n, In n summed_up /\ t = LNum (Z.of_N n).
Proof.
  destruct t as [z|z]; [|discriminate]. unfold has_summary. rewrite existsb_exists. intros (x & H & E). apply Z.eqb_eq in E. subst x.
  exists (Z.to_N z). cbn [In] in H. repeat (destruct H as [<-|H]; [split; [cbn; tauto|reflexivity]|]). contradiction.
Qed.
Lemma has_summary_in n : In n summed_up -> has_summary (LNum (Z.of_N n)) = true.
Proof. unfold summed_up. cbn [In]. intros H. repeat (destruct H as [<-|H]; [reflexivity|]). contradiction. Qed.

Definition named (it : item) : Prop :=
  it_name it = match ndn_dict (it_type it) with Some en => e_name en | None => ""%string end.
Lemma addInfo_named buf b els par it : addInfo buf b els par = Ok it -> named it.
Proof.
  intros H. unfold named. pose proof (addInfo_value _ _ _ _ _ H) as V. apply addInfo_item in H.
  destruct H as (_ & _ & -> & _). destruct (ndn_dict (b_type b)); tauto.
Qed.

Section Items.
Variable items : list item.
Hypothesis HT : tree items.
Hypothesis HN : Forall named items.
Hypothesis HO : forall k, k < length items -> hanging items k (kids items k).
Variable sm : list (nat * text).
Hypothesis HE : forall k, k < length items -> look sm k = expected items sm k.

Lemma show_value v : show v = item_value v. Proof. destruct v; reflexivity. Qed.

Lemma summary_right : forall k, k < length items -> summary items k (look sm k).
Proof.
  intros k. remember (length items - k) as m eqn:Em. revert k Em.
  induction m as [m IH] using (well_founded_induction lt_wf). intros k Em Hk.
  rewrite HE by exact Hk. unfold expected. destruct (nth_error items k) as [it|] eqn:EK.
  2: { apply nth_error_None in EK. lia. }
  destruct (has_summary (it_type it)) eqn:EH.
  2: { eapply summary_no; [exact EK|]. intros t Ht E. apply has_summary_in in Ht. congruence. }
  apply has_summary_true in EH. destruct EH as (n & Hn & Et).
  assert (HP : parts items (kids items k) (flat_map (mention items sm) (kids items k))).
  { assert (HC : forall c, In c (kids items k) -> k < c < length items).
    { intros c Hc. split; [eapply kid_gt; eauto|eapply kid_range; eauto]. }
    revert HC. induction (kids items k) as [|c cs IHc]; intros HC; [constructor|]. cbn [flat_map].
    specialize (IHc (fun c' H => HC c' (or_intror H))). destruct (HC c (or_introl eq_refl)) as [L1 L2].
    unfold mention, value_of. fold (look sm c). destruct (nth_error items c) as [ic|] eqn:EC.
    2: { apply nth_error_None in EC. lia. }
    assert (NC : named ic) by (rewrite Forall_forall in HN; apply HN; eauto using nth_error_In). unfold named in NC.
    destruct (ndn_dict (it_type ic)) as [en|] eqn:ED.
    2: { destruct (it_value ic) as [v|]; [|destruct (look sm c)]; cbn [app]; eapply parts_unknown; eauto. }
    assert (NE : it_name ic <> ""%string) by (rewrite NC; eapply dict_name_nonempty; eauto).
    destruct (it_value ic) as [v|] eqn:EV; cbn [app].
    - rewrite <- NC, show_value. eapply parts_value; eauto.
    - assert (S : summary items c (look sm c)) by (apply (IH (length items - c)); lia).
      destruct (look sm c) as [s|] eqn:EL; cbn [app]; [rewrite <- NC; eapply parts_inner; eauto|eapply parts_silent; eauto]. }
  destruct (flat_map (mention items sm) (kids items k)) as [|p ps] eqn:EF.
  - eapply summary_empty; eauto.
  - rewrite concat_joined. eapply summary_fields; eauto.
Qed.
End Items.

(** * Every buffer *)
Lemma made_hanging buf items b : tree items -> made buf items 0 b -> sized buf b ->
  forall k, k < length items -> hanging items k (kids items k).
Proof.
  intros HT HM HS k Hk. split; [intros j; apply kids_in|].
  destruct (nth_error items k) as [it|] eqn:E; [|apply nth_error_None in E; lia].
  destruct (all_made buf items b (sized buf) HT HM HS) with (j := k) (it := it) as (c & SC & MC); auto.
  - clear. intros b els c HS HG HI. pose proof (sub_sized buf b HS) as K. rewrite HG in K. destruct els as [cs|]; [|destruct HI].
    destruct K as [K _]. rewrite Forall_forall in K. auto.
  - intros l1 x l2 y l3. eapply made_order; eauto.
Qed.
Lemma made_named buf items b : tree items -> made buf items 0 b -> Forall named items.
Proof.
  intros HT HM. apply Forall_forall. intros it Hin. apply In_nth_error in Hin. destruct Hin as [k E].
  destruct (all_made buf items b (fun _ => True) HT HM I (fun _ _ _ _ _ _ => I) k it E) as (c & _ & MC).
  inversion MC as [? ? ? it' ? ? X1 _ X3]; subst. replace it with it' by congruence. eapply addInfo_named; eauto.
Qed.
Lemma made_nonempty buf items b : made buf items 0 b -> items <> [].
Proof. intros H ->. inversion H as [? ? ? ? ? ? X]. discriminate X. Qed.

Lemma tree_summaries buf items b : tree items -> made buf items 0 b -> sized buf b ->
  exists sm, summaries items = Ok sm /\ (forall k, k < length items -> look sm k = expected items sm k) /\
    forall k, k < length items -> summary items k (look sm k).
Proof.
  intros HT HM HS. destruct (summaries_ok items HT (made_nonempty _ _ _ HM)) as (sm & E & HE).
  exists sm. split; [exact E|]. split; [exact HE|]. apply summary_right; auto; eauto using made_named, made_hanging.
Qed.

(** the tree of a dissector run that does not fail *)
Lemma finished_tree buf reported r items : dissector buf reported = Some r -> r_end r = Finished -> In items (r_trees r) ->
  exists b, sized buf b /\ tree items /\ made buf items 0 b.
Proof.
  unfold dissector. destruct (negb (len buf =? reported)%Z); [discriminate|].
  destruct (findNdnPacket buf (length buf) 0%Z) as [b|] eqn:EF; [|discriminate].
  remember (S (S (length buf))) as F eqn:EFu. intros H. assert (ER : r = packets buf F b (len buf - b_off b) [] (PtNone, [])) by congruence.
  subst r. clear H. apply find_found in EF; [|lia]. destruct EF as (HF & _ & H0 & H2).
  set (left := (len buf - b_off b)%Z).
  destruct (Z_lt_le_dec left (lval (b_size b))) as [HL|HL].
  { rewrite packets_large by exact HL. intros _ []. }
  destruct (b_length b) as [l|v] eqn:El.
  2: { rewrite (packets_u64 _ _ _ _ _ v) by (lia || assumption). intros _ []. }
  pose proof (found_sized _ _ _ HF El) as HZ. destruct (sized_size _ _ HZ) as (l' & El' & L0 & Sz & Sz' & Hh).
  assert (l' = l) by congruence. subst l'.
  rewrite (packets_eq buf _ b left _ (b_typeLen b + b_lengthLen b + l)%Z); [|lia|exact Sz|lia|lia|reflexivity|unfold size_of in Sz'; lia].
  destruct (addTree buf (S (length buf)) [(b, None)] []) as [[[]| |] out] eqn:ET; [|discriminate..].
  destruct (summarize buf (S (length buf + length buf)) [(b, false)] (PtNone, [])) as [i'| |]; [|discriminate..].
  intros _ Hin. destruct (after_end buf out i' (left - (b_typeLen b + b_lengthLen b + l)) b) as [_ A2]. rewrite A2 in Hin.
  destruct Hin as [<-|[]]. exists b. split; [exact HZ|]. eapply addTree_tree; eauto.
Qed.

Lemma appended_look sm k : appended sm k = match look sm k with Some s => str ", " ++ s | None => [] end.
Proof. unfold appended, look. destruct (find _ sm); reflexivity. Qed.

Lemma dissector_summaries buf reported r items : dissector buf reported = Some r -> r_end r = Finished -> In items (r_trees r) ->
  exists sm, summaries items = Ok sm /\
    forall k it, nth_error items k = Some it -> exists s, summary items k s /\
      appended sm k = match s with Some s => str ", " ++ s | None => [] end.
Proof.
  intros H1 H2 H3. destruct (finished_tree _ _ _ _ H1 H2 H3) as (b & A & B & C).
  destruct (tree_summaries _ _ _ B C A) as (sm & E & _ & S). exists sm. split; [exact E|].
  intros k it Hk. exists (look sm k). split; [apply S, nth_error_Some; congruence|apply appended_look].
Qed.

(** * Packets *)

(** item [k] and those on it stand for [e] and what is inside; other items may hang on the items
    of leaves *)
Inductive holds (items : list item) : nat -> element -> Prop :=
| holds_intro k e it :
    nth_error items k = Some it -> it_type it = LNum (Z.of_N (e_type e)) -> named it -> labelled it e ->
    (forall t es, e = Node t es -> length (kids items k) = length es) ->
    (forall t es i c x, e = Node t es -> nth_error (kids items k) i = Some c -> nth_error es i = Some x -> holds items c x) ->
    holds items k e.

Lemma nth_seq_error s n i : i < n -> nth_error (seq s n) i = Some (s + i).
Proof.
  intros H. rewrite (nth_error_nth' (seq s n) 0) by (rewrite seq_length; lia). f_equal. now apply seq_nth.
Qed.

Lemma made_holds buf out : short buf -> forall e k o, made buf out k (block_of o e) -> at_ buf o e -> well_formed e ->
  holds out k e.
Proof.
  intros HQ. induction e as [t v|t es IH] using element_ind'; intros k o HM HA HW;
    inversion HM as [k' b' par it els s M1 M2 M3 M4 M5]; subst;
    (apply holds_intro with (it := it);
     [assumption|apply addInfo_item in M3; apply M3|eapply addInfo_named; eauto|eapply addInfo_label; eauto|..]); try discriminate.
  all: assert (HTs : Forall type_ok32 es) by (inversion HW; subst; now apply wf_types).
  all: rewrite (sub_node _ _ _ _ HQ HTs HA) in M2; assert (els = Some (blocks_of (o + zlen (header (Node t es))) es)) by congruence; subst els; clear M2.
  all: cbn [subs_of] in M4, M5; rewrite blocks_located in M4, M5; rewrite map_length in M4.
  all: assert (LL : length (located (o + zlen (header (Node t es))) es) = length es) by (rewrite <- (map_length snd), located_snd; reflexivity).
  - intros t' es' [= <- <-]. rewrite M4, seq_length. exact LL.
  - intros t' es' i c x [= <- <-] Hc Hx. assert (Li : i < length es) by (apply nth_error_Some; congruence).
    rewrite M4, nth_seq_error in Hc by lia. injection Hc as <-.
    destruct (nth_error (located (o + zlen (header (Node t es))) es) i) as [[o' e']|] eqn:EL.
    2: { apply nth_error_None in EL. lia. }
    assert (e' = x). { apply (map_nth_error snd) in EL. rewrite located_snd in EL. cbn in EL. congruence. } subst e'.
    pose proof (located_at buf es _ (at_sub _ _ _ _ HA)) as HLA. rewrite Forall_forall in HLA.
    pose proof (HLA _ (nth_error_In _ _ EL)) as Ax. cbn [fst snd] in Ax.
    rewrite Forall_forall in IH. inversion HW; subst.
    repeat match goal with H : Forall well_formed es |- _ => rewrite Forall_forall in H end.
    apply IH with (o := o'); eauto using nth_error_In.
    apply M5. rewrite nth_error_map, EL. reflexivity.
Qed.

Lemma components_fun n : forall t u, components_text n t -> components_text n u -> t = u.
Proof.
  induction n as [|c n IH]; intros t u H1 H2; inversion H1; inversion H2; subst; [reflexivity|].
  f_equal. f_equal; [eapply component_fun; eauto|auto].
Qed.
Lemma name_uri_fun n t u : name_uri n t -> name_uri n u -> t = u.
Proof.
  intros H1 H2. inversion H1; inversion H2; subst; try congruence. eapply components_fun; eauto.
Qed.

Lemma says_value it e t : labelled it e -> says e t -> exists v, it_value it = Some v /\ item_value v = t.
Proof.
  intros L H. destruct H as [n u Hu|t v u Ht Hu|t v Ht|t v Ht Hv|v Hv|x|c u Hu|r t Ht|].
  - destruct (l_uri _ _ L n eq_refl) as (w & E & Hw). exists (VText w). split; [exact E|]. eapply name_uri_fun; eauto.
  - destruct (l_component _ _ L Ht) as (w & E & Hw). exists (VText w). split; [exact E|]. eapply component_fun; eauto.
  - exists (VText (str "Yes")). split; [exact (l_flag _ _ L Ht)|reflexivity].
  - eexists. split; [exact (l_integer _ _ L Ht Hv)|]. cbn [item_value payload]. now rewrite N2Z.id.
  - eexists. split; [exact (l_nonce _ _ L eq_refl Hv)|]. cbn [item_value payload]. now rewrite N2Z.id.
  - eexists. split; [exact (l_hops _ _ L eq_refl eq_refl)|]. cbn [item_value payload]. rewrite N2Z.id. cbn. f_equal. destruct x; reflexivity.
  - destruct (l_final _ _ L _ [] eq_refl) as (w & E & Hw). exists (VText w). split; [exact E|]. cbn [e_type payload] in Hw.
    destruct c. cbn in *. eapply component_fun; eauto.
  - exists (VText t). split; [exact (l_nack _ _ L r t eq_refl Ht)|reflexivity].
  - exists (VText (str "NoCache")). split; [exact (l_cache _ _ L eq_refl)|reflexivity].
Qed.

Lemma says_named e t : says e t -> type_name (e_type e) <> ""%string.
Proof.
  intros H. destruct H as [n u Hu|t v u Ht Hu|t v Ht|t v Ht Hv|v Hv|x|c u Hu|r t Ht|]; cbn [e_type name_element]; try discriminate.
  - cbn [In] in Ht. repeat (destruct Ht as [<-|Ht]; [discriminate|]). contradiction.
  - cbn [In] in Ht. repeat (destruct Ht as [<-|Ht]; [discriminate|]). contradiction.
  - unfold integer_types in Ht. cbn [In] in Ht. repeat (destruct Ht as [<-|Ht]; [discriminate|]). contradiction.
Qed.
Lemma summed_named t : In t summed_up -> type_name t <> ""%string.
Proof. unfold summed_up. cbn [In]. intros Ht. repeat (destruct Ht as [<-|Ht]; [discriminate|]). contradiction. Qed.
Lemma left_out_named t : In t left_out -> type_name t <> ""%string /\ has_summary (LNum (Z.of_N t)) = false.
Proof. unfold left_out. cbn [In]. intros Ht. repeat (destruct Ht as [<-|Ht]; [split; [discriminate|reflexivity]|]). contradiction. Qed.

Section Plain.
Variable items : list item.
Variable sm : list (nat * text).
Hypothesis HE : forall k, k < length items -> look sm k = expected items sm k.

Lemma mention_holds k e : holds items k e -> exists it, nth_error items k = Some it /\ labelled it e /\
  mention items sm k =
  match (match it_value it with Some v => Some (item_value v) | None => look sm k end) with
  | Some v => if String.eqb (type_name (e_type e)) "" then [] else [field_line e v]
  | None => []
  end.
Proof.
  intros H. inversion H as [k' e' it H1 H2 H3 H4 H5 H6]; subst. exists it. split; [exact H1|]. split; [exact H4|].
  unfold mention, value_of. fold (look sm k). rewrite H1.
  assert (D : match ndn_dict (it_type it) with Some en => e_name en = type_name (e_type e) /\ type_name (e_type e) <> ""%string
              | None => type_name (e_type e) = ""%string end).
  { pose proof (l_name _ _ H4) as LN. unfold named in H3. rewrite H3 in LN. destruct (ndn_dict (it_type it)) as [en|] eqn:ED.
    - split; [exact LN|]. rewrite <- LN. eapply dict_name_nonempty; eauto.
    - congruence. }
  assert (G : forall o : option text, match o with Some v => match ndn_dict (it_type it) with Some info => [str (e_name info) ++ str ": " ++ v] | None => [] end | None => [] end =
     match o with Some v => if String.eqb (type_name (e_type e)) "" then [] else [field_line e v] | None => [] end).
  { intros [v|]; [|reflexivity]. destruct (ndn_dict (it_type it)) as [en|].
    - destruct D as [-> D]. apply String.eqb_neq in D. rewrite D. reflexivity.
    - rewrite D. reflexivity. }
  destruct (it_value it) as [v|]; [exact (G (Some (show v)))|exact (G (look sm k))].
Qed.

Lemma holds_look k t es l : holds items k (Node t es) -> In t summed_up ->
  flat_map (mention items sm) (kids items k) = l ->
  look sm k = match l with [] => None | _ => Some (joined l) end.
Proof.
  intros H Ht E. inversion H as [k' e' it H1 H2 H3 H4 H5 H6]; subst.
  rewrite HE by (apply nth_error_Some; congruence). unfold expected. rewrite H1, H2. cbn [e_type]. rewrite has_summary_in by exact Ht.
  destruct (flat_map _ _) as [|p ps]; [reflexivity|]. now rewrite concat_joined.
Qed.

Lemma fields_mention es l : fields es l -> forall ks, length ks = length es ->
  (forall i c x, nth_error ks i = Some c -> nth_error es i = Some x -> holds items c x) ->
  flat_map (mention items sm) ks = l.
Proof.
  assert (KH : forall k t es l, holds items k (Node t es) ->
     (forall ks, length ks = length es -> (forall i c x, nth_error ks i = Some c -> nth_error es i = Some x -> holds items c x) ->
        flat_map (mention items sm) ks = l) -> In t summed_up -> look sm k = match l with [] => None | _ => Some (joined l) end).
  { intros k t es' l' H IH Ht. eapply holds_look; eauto. inversion H; subst. eauto. }
  induction 1 as [|e es t l Hs Hf IH|t inner p ps es l Ht Hi IHi Hf IH|t inner es l Ht Hi IHi Hf IH|e es l He Hf IH|e es l He Hf IH];
    intros ks HL HH.
  { destruct ks; [reflexivity|discriminate]. }
  all: destruct ks as [|k ks]; [discriminate|]; cbn [flat_map]; injection HL as HL;
    rewrite (IH ks HL) by (intros i c x A B; exact (HH (S i) c x A B));
    pose proof (HH 0 _ _ eq_refl eq_refl) as H0; destruct (mention_holds _ _ H0) as (it & E1 & LB & ->).
  - destruct (says_value _ _ _ LB Hs) as (v & Ev & <-). rewrite Ev.
    pose proof (says_named _ _ Hs) as NE. apply String.eqb_neq in NE. rewrite NE. reflexivity.
  - rewrite (l_nothing _ _ LB). 2: { cbn [e_type]. unfold summed_up in Ht. cbn [In] in *. intuition. }
    rewrite (KH _ _ _ _ H0 IHi Ht). cbn [e_type]. pose proof (summed_named _ Ht) as NE. apply String.eqb_neq in NE. rewrite NE. reflexivity.
  - rewrite (l_nothing _ _ LB). 2: { cbn [e_type]. unfold summed_up in Ht. cbn [In] in *. intuition. }
    rewrite (KH _ _ _ _ H0 IHi Ht). reflexivity.
  - rewrite (l_nothing _ _ LB). 2: { unfold left_out in He. cbn [In] in *. intuition. }
    assert (look sm k = None) as ->; [|reflexivity].
    inversion H0 as [k' e' it' H1 H2 H3 H4 H5 H6]; subst.
    rewrite HE by (apply nth_error_Some; congruence). unfold expected. rewrite H1, H2.
    apply left_out_named in He. destruct He as [_ ->]. reflexivity.
  - rewrite He. destruct (match it_value it with Some v => Some (item_value v) | None => look sm k end); reflexivity.
Qed.
End Plain.

Lemma line_of_packet t es post r l : is_packet (Node t es) -> short (wire (Node t es) ++ post) ->
  dissector (wire (Node t es) ++ post) (len (wire (Node t es) ++ post)) = Some r -> r_end r = Finished -> fields es l ->
  exists items sm, r_trees r = [items] /\ summaries items = Ok sm /\
    tree_text items sm = str ", " ++ str (type_name t) ++ match l with [] => [] | _ => str ", " ++ joined l end.
Proof.
  set (p := Node t es). intros HP HS C HFin HF. set (buf := wire p ++ post) in *.
  assert (W : well_formed p) by apply HP. assert (AT : at_ buf 0 p) by apply packet_at0.
  unfold buf in C. rewrite dissect_packet in C by assumption. cbv zeta in C. fold buf in C.
  destruct (addTree buf (S (length buf)) [(block_of 0 p, None)] []) as [[[]| |] items] eqn:ET;
    [|injection C as <-; discriminate HFin..].
  destruct (addTree_tree _ _ _ _ ET) as [TR MI].
  assert (RT : r_trees r = [items]).
  { destruct (summarize buf (S (length buf + length buf)) [(block_of 0 p, false)] (PtNone, [])) as [i| |];
      injection C as <-; [apply after_end|reflexivity..]. }
  destruct (tree_summaries buf items (block_of 0 p) TR MI) as (sm & ES & HE & _).
  { apply block_real; auto. apply packet_type. exact HP. }
  exists items, sm. split; [exact RT|]. split; [exact ES|].
  pose proof (made_holds buf items HS p 0 0%Z MI AT W) as HH.
  pose proof HH as HH'. inversion HH' as [k' e' it H1 H2 H3 H4 H5 H6]; subst.
  assert (Ht : In t summed_up). { destruct HP as (_ & Tt & _). cbn in Tt. unfold summed_up. cbn [In]. intuition. }
  assert (FM : flat_map (mention items sm) (kids items 0) = l) by exact (fields_mention items sm HE es l HF _ (H5 t es eq_refl) (fun i c x => H6 t es i c x eq_refl)).
  pose proof (holds_look items sm HE 0 t es l HH Ht FM) as LK.
  unfold tree_text. rewrite H1, appended_look, LK. pose proof (l_name _ _ H4) as LN. unfold named in H3. cbn [e_type] in LN.
  rewrite H3 in LN. destruct (ndn_dict (it_type it)) as [en|].
  - rewrite LN. destruct l; reflexivity.
  - exfalso. apply (summed_named _ Ht). exact (eq_sym LN).
Qed.
