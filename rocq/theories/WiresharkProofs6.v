(** Proofs about the Wireshark dissector: items are labelled, the elements of a packet are
    shown. *)
From Coq Require Import String.
From Verif Require Import Base BaseFacts TlvModel TlvProofs PingModel DumpModel WiresharkModel WiresharkSpec
  WiresharkProofs WiresharkProofs2 WiresharkProofs3 WiresharkProofs4 WiresharkProofs5.
Open Scope Z_scope.

Lemma addInfo_value buf b els par it : addInfo buf b els par = Ok it ->
  match ndn_dict (b_type b) with
  | Some en => it_name it = e_name en /\ format buf (e_value en) b els = Ok (it_value it)
  | None => it_name it = ""%string
  end.
Proof.
  unfold addInfo. destruct (ndn_dict (b_type b)) as [en|].
  - destruct (format buf (e_value en) b els) as [v| |]; cbn [bind]; [|discriminate..].
    destruct (range buf _ _); cbn [bind]; [|discriminate..].
    destruct (match v with Some v => field_accepts (e_field en) v | None => true end); [|discriminate]. intros [= <-]. auto.
  - destruct (getGenericBlockInfo b); cbn [bind]; [|discriminate..].
    destruct (range buf _ _); cbn [bind]; [|discriminate..]. destruct (field_accepts FNone _); [|discriminate]. intros [= <-]. reflexivity.
Qed.

Lemma dict_names t : match ndn_dict (LNum (Z.of_N t)) with Some en => e_name en | None => ""%string end = type_name t.
Proof.
  destruct t as [|p]; [reflexivity|].
  do 10 (try (destruct p as [p|p|]; [| |reflexivity])).
  all: reflexivity.
Qed.

Lemma nni_lis buf o e : at_ buf o e -> integer (payload e) ->
  getNonNegativeInteger buf (block_of o e) = Ok (Z.of_N (of_be (payload e))).
Proof.
  intros HA HI. unfold getNonNegativeInteger. rewrite (value_at _ _ _ HA). cbn [block_of b_length bind].
  unfold zlen. destruct HI as [H|[H|[H|[H|[]]]]]; rewrite <- H; reflexivity.
Qed.

Lemma addInfo_label buf o e els par it : short buf -> well_formed e -> at_ buf o e ->
  getSubBlocks buf (block_of o e) = Ok els -> addInfo buf (block_of o e) els par = Ok it -> labelled it e.
Proof.
  intros HS W HA HE HI. apply addInfo_value in HI. cbn [block_of b_type] in HI.
  assert (HN : it_name it = type_name (e_type e)).
  { rewrite <- dict_names. destruct (ndn_dict (LNum (Z.of_N (e_type e)))); [tauto|exact HI]. }
  assert (HF : forall t en, e_type e = t -> ndn_dict (LNum (Z.of_N t)) = Some en -> format buf (e_value en) (block_of o e) els = Ok (it_value it)).
  { intros t en E1 E2. rewrite E1, E2 in HI. tauto. }
  clear HI. constructor; [exact HN|..].
  - intros n ->. specialize (HF 7%N _ eq_refl eq_refl). cbn [e_value format] in HF.
    unfold name_element in HE. rewrite sub_node in HE; [|exact HS| |exact HA].
    2: { inversion W; subst. now apply wf_types. }
    injection HE as <-. rewrite uri_node in HF by exact HA. cbn [bind] in HF. injection HF as HF.
    rewrite map_map in HF. cbn [e_type payload] in HF. eexists. split; [symmetry; exact HF|]. apply name_uri_ok.
  - intros HT. assert (HV : it_value it = Some (VText (comp_uri (e_type e) (payload e)))).
    { destruct HT as [HT|[HT|[HT|[]]]]; specialize (HF _ _ (eq_sym HT) eq_refl); cbn [e_value format] in HF;
        rewrite component_at in HF by exact HA; cbn [bind] in HF; injection HF as HF; now rewrite <- HF. }
    eexists. split; [exact HV|]. apply component_text_ok.
  - intros c es ->. specialize (HF 26%N _ eq_refl eq_refl). cbn [e_value format] in HF.
    rewrite sub_node in HE; [|exact HS| |exact HA].
    2: { inversion W; subst. now apply wf_types. }
    injection HE as <-. cbn [blocks_of getUriFromFinalBlockId] in HF. rewrite component_at in HF.
    2: { apply at_sub in HA. destruct HA as (a & r & E & EA). exists a, (wires es ++ r). rewrite E, wires_cons, <- app_assoc. auto. }
    cbn [bind] in HF. injection HF as HF. eexists. split; [symmetry; exact HF|]. apply component_text_ok.
  - intros HT HL. assert (HX : format buf FmInteger (block_of o e) els = Ok (it_value it)).
    { unfold integer_types in HT. cbn [In] in HT.
      repeat (destruct HT as [HT|HT]; [exact (HF _ _ (eq_sym HT) eq_refl)|]). contradiction. }
    cbn [format] in HX. rewrite nni_lis in HX by assumption. cbn [bind] in HX. congruence.
  - intros HT HL. specialize (HF _ _ HT eq_refl). cbn [e_value format] in HF.
    unfold getNonce in HF. rewrite (value_at _ _ _ HA) in HF. cbn [block_of b_type b_length] in HF. rewrite HT in HF. unfold zlen in HF. rewrite HL in HF.
    change (lis (LNum (Z.of_N 10)) 10) with true in HF. change (lis (LNum (Z.of_nat 4)) 4) with true in HF. cbn [negb] in HF.
    cbn [bind] in HF. unfold uint in HF. congruence.
  - intros HT HL. specialize (HF _ _ HT eq_refl). cbn [e_value format] in HF.
    unfold getHopLimit in HF. rewrite (value_at _ _ _ HA) in HF. cbn [block_of b_type b_length] in HF. rewrite HT in HF. unfold zlen in HF. rewrite HL in HF.
    change (lis (LNum (Z.of_N 34)) 34) with true in HF. change (lis (LNum (Z.of_nat 1)) 1) with true in HF. cbn [negb] in HF.
    cbn [bind] in HF. unfold uint in HF. congruence.
  - intros r t -> HT. specialize (HF 801%N _ eq_refl eq_refl). cbn [e_value format] in HF.
    unfold getNackReasonDetail in HF. change (lis (b_type (block_of o (Leaf 801 (nni r)))) 801) with true in HF. cbn match in HF.
    rewrite nni_lis in HF; [|exact HA|].
    + cbn [bind payload] in HF. destruct HT as [HT|[HT|[HT|[]]]]; injection HT as <- <-; injection HF as <-; reflexivity.
    + cbn [payload]. destruct HT as [HT|[HT|[HT|[]]]]; injection HT as <- <-; left; reflexivity.
  - intros ->. specialize (HF 821%N _ eq_refl eq_refl). cbn [e_value format] in HF.
    unfold getCachePolicyDetail in HF. change (lis (b_type (block_of o (Leaf 821 (nni 1)))) 821) with true in HF. cbn match in HF.
    rewrite nni_lis in HF; [|exact HA|left; reflexivity]. cbn [bind payload] in HF. injection HF as <-. reflexivity.  - intros HT. cbn [In] in HT. destruct HT as [HT|[HT|[]]]; specialize (HF _ _ (eq_sym HT) eq_refl); cbn [e_value format] in HF; congruence.
  - intros HT. cbn [In] in HT.
    repeat (destruct HT as [HT|HT]; [specialize (HF _ _ (eq_sym HT) eq_refl); cbn [e_value format] in HF; congruence|]). contradiction.
Qed.

Lemma displays_list_intro out k : forall es o,
  (forall es1 e es2, es = es1 ++ e :: es2 -> displays out k (o + zlen (wires es1)) e) ->
  displays_list out k o es.
Proof.
  induction es as [|e es IH]; intros o H; [constructor|].
  constructor.
  - specialize (H [] e es eq_refl). cbn in H. rewrite Z.add_0_r in H. exact H.
  - apply IH. intros es1 e' es2 E. specialize (H (e :: es1) e' es2). rewrite E in H. specialize (H eq_refl).
    rewrite wires_len in H. now rewrite <- Z.add_assoc.
Qed.

Lemma addTree_displays buf : short buf -> forall fuel queue items out, addTree buf fuel queue items = (Ok tt, out) ->
  (exists suf, out = items ++ suf) /\
  forall par e o, In (block_of o e, par) queue -> well_formed e -> at_ buf o e -> displays out par o e.
Proof.
  intros HS. induction fuel as [|fuel IH]; intros queue items out H.
  - destruct queue as [|[b par] queue]; cbn in H; [|discriminate]. injection H as <-.
    split; [exists []; now rewrite app_nil_r|intros ? ? ? []].
  - destruct queue as [|[b par] queue]; cbn [addTree] in H.
    { injection H as <-. split; [exists []; now rewrite app_nil_r|intros ? ? ? []]. }
    destruct (getSubBlocks buf b) as [els| |] eqn:ES; [|discriminate..].
    destruct (addInfo buf b els par) as [it| |] eqn:EI; [|discriminate..].
    apply IH in H. destruct H as [[suf ->] HD]. split; [exists (it :: suf); now rewrite <- app_assoc|].
    assert (HN : nth_error ((items ++ [it]) ++ suf) (length items) = Some it).
    { rewrite <- app_assoc, nth_error_app2, Nat.sub_diag by lia. reflexivity. }
    intros par' e o Hin Hwf Hat. destruct Hin as [Hin|Hin].
    2: { apply HD; auto. apply in_or_app. now left. }
    injection Hin as -> ->. pose proof (addInfo_label _ _ _ _ _ _ HS Hwf Hat ES EI) as HLab.
    apply addInfo_item in EI. destruct EI as (I1 & I2 & I3 & I4 & _).
    rewrite block_size in I2. cbn [lval] in I2.
    destruct e as [t v|t es].
    + eapply displays_leaf; eauto.
    + eapply displays_node; eauto.
      apply displays_list_intro. intros es1 e es2 E. inversion Hwf; subst.
      match goal with H : Forall well_formed (es1 ++ _) |- _ => pose proof H as HF; apply Forall_app in H; destruct H as [_ HF2]; inversion HF2; subst end.
      apply HD.
      * rewrite (sub_node buf _ t _ HS (wf_types _ HF) Hat) in ES. injection ES as <-.
        apply in_or_app. right. rewrite blocks_of_app, map_app. apply in_or_app. right. left. reflexivity.
      * assumption.
      * apply at_sub in Hat. destruct Hat as (a & c & EB & EA). rewrite wires_app, wires_cons in EB.
        exists (a ++ wires es1), (wires es2 ++ c). rewrite EB, <- !app_assoc, zlen_app. split; [reflexivity|lia].
Qed.

