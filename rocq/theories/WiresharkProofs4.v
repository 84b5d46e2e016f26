(** Proofs about the Wireshark dissector: texts of names, packets of plain elements. *)
From Coq Require Import String.
From Verif Require Import Base BaseFacts TlvModel TlvProofs PingModel DumpModel WiresharkModel WiresharkSpec
  WiresharkProofs WiresharkProofs2 WiresharkProofs3.
Open Scope Z_scope.

Lemma lis_N (a b : N) : lis (LNum (Z.of_N a)) (Z.of_N b) = (a =? b)%N.
Proof. cbn [lis]. destruct (Z.eqb_spec (Z.of_N a) (Z.of_N b)), (N.eqb_spec a b); try reflexivity; lia. Qed.

Lemma value_at buf o e : at_ buf o e -> getValue buf (block_of o e) = Ok (payload e).
Proof.
  intros (a & c & E & ->). unfold getValue. cbn [block_of b_off b_typeLen b_lengthLen b_length].
  rewrite E, wire_eq, <- app_assoc, (app_assoc a). apply range_at; [|reflexivity].
  rewrite zlen_app. unfold header. rewrite zlen_app. lia.
Qed.
Lemma range_whole buf o e : at_ buf o e -> range buf (LNum o) (b_size (block_of o e)) = Ok (wire e).
Proof. intros (a & c & E & ->). rewrite block_size, E. now apply range_at. Qed.

(** * Texts *)
Definition periods (v : list N) : bool := negb (existsb (fun ch => negb (ch =? 46)%N) v).
Definition value_uri (v : list N) : text :=
  flat_map (fun ch => if unreserved ch then [ch] else str "%" ++ hex2 true ch) v ++ (if periods v then str "..." else []).
Definition comp_uri (t : N) (v : list N) : text :=
  if (t =? 1)%N then str "sha256digest=" ++ flat_map (hex2 false) v
  else if (t =? 2)%N then str "params-sha256=" ++ flat_map (hex2 false) v
  else (if (t =? 8)%N then [] else to_string t ++ str "=") ++ value_uri v.

Lemma component_at buf o e : at_ buf o e ->
  getUriFromNameComponent buf (block_of o e) = Ok (comp_uri (e_type e) (payload e)).
Proof.
  intros H. unfold getUriFromNameComponent, getUriFromSha256DigestComponent, comp_uri.
  cbn [block_of b_type].
  change 1 with (Z.of_N 1). change 2 with (Z.of_N 2). change 8 with (Z.of_N 8). rewrite !lis_N.
  rewrite (value_at _ _ _ H). cbn [bind].
  destruct (e_type e =? 1)%N; [reflexivity|]. destruct (e_type e =? 2)%N; [reflexivity|]. cbn [orb].
  unfold value_uri, periods. destruct (e_type e =? 8)%N; cbn [bind].
  - cbn [app]. destruct (existsb _ (payload e)); reflexivity.
  - unfold decimal. rewrite N2Z.id. destruct (existsb _ (payload e)); reflexivity.
Qed.

Lemma components_at buf : forall es o, (exists a c, buf = a ++ wires es ++ c /\ zlen a = o) ->
  mapM (getUriFromNameComponent buf) (blocks_of o es) = Ok (map (fun e => comp_uri (e_type e) (payload e)) es).
Proof.
  induction es as [|e es IH]; intros o (a & c & E & EA); [reflexivity|]. cbn [blocks_of mapM].
  rewrite component_at by (exists a, (wires es ++ c); rewrite E, wires_cons, <- app_assoc; auto). cbn [bind].
  rewrite IH; [reflexivity|]. exists (a ++ wire e), c. rewrite E, wires_cons, <- !app_assoc, zlen_app. split; [reflexivity|lia].
Qed.

Lemma uri_node buf o t es : at_ buf o (Node t es) ->
  getUriFromName buf (Some (blocks_of (o + zlen (header (Node t es))) es)) =
  Ok (str "/" ++ concat_slash (map (fun e => comp_uri (e_type e) (payload e)) es)).
Proof. intros H. cbn [getUriFromName]. rewrite components_at; [reflexivity|]. apply at_sub. exact H. Qed.

(** * Leaves *)
Lemma wire_bytes e : well_formed e -> zlen (wire e) < 4294967296 -> Forall is_byte (wire e).
Proof.
  induction e as [t v|t es IH] using element_ind'; intros W L; inversion W; subst.
  - rewrite wire_len in L. pose proof (zlen_pos (header (Leaf t v))). cbn [payload] in L. unfold zlen in L.
    cbn [wire]. unfold tlv. apply Forall_app. split; [apply var_number_bytes; unfold u64; lia|].
    apply Forall_app. split; [apply var_number_bytes; unfold u64; lia|assumption].
  - rewrite wire_len in L. pose proof (zlen_pos (header (Node t es))). cbn [payload] in L.
    cbn [wire]. unfold tlv. fold (wires es). apply Forall_app. split; [apply var_number_bytes; unfold u64; lia|].
    apply Forall_app. split; [apply var_number_bytes; unfold u64, zlen in *; lia|].
    assert (HL : zlen (wires es) < 4294967296) by lia. clear L W.
    match goal with K : 0 <= zlen (header _) |- _ => clear K end.
    match goal with HF : Forall well_formed es |- _ => revert HF end.
    induction IH as [|e es He _ IHes]; intros HF; [constructor|]. inversion_clear HF.
    rewrite wires_len in HL. pose proof (zlen_pos (wires es)). pose proof (zlen_pos (wire e)).
    rewrite wires_cons. apply Forall_app. split; [apply He; auto; lia|]. apply IHes; auto. lia.
Qed.

Definition quiet (buf : list N) : Prop := Forall is_byte buf /\ len buf < 65536 /\ ~ risky buf.
Lemma quiet_short buf : quiet buf -> short buf.
Proof. intros (_ & H & _). unfold short, len, zlen in *. lia. Qed.

Lemma block_real buf o e : short buf -> type_ok32 e -> at_ buf o e -> sized buf (block_of o e).
Proof.
  intros HS HT HA. pose proof (getBlock_cases buf (LNum o)) as H. rewrite (getBlock_at _ _ _ HT HS HA) in H. destruct H as [_ H].
  split; [|split; [exact H|]].
  - destruct HA as (a & c & _ & ->). apply zlen_pos.
  - cbn. eexists. split; [reflexivity|apply zlen_pos].
Qed.

Lemma sub_leaf buf o t v : quiet buf -> (t < 4294967296)%N -> opaque v -> at_ buf o (Leaf t v) ->
  getSubBlocks buf (block_of o (Leaf t v)) = Ok (match v with [] => Some [] | _ => None end).
Proof.
  intros HQ Ht HO HA. pose proof (block_real buf o (Leaf t v) (quiet_short _ HQ) Ht HA) as HZ.
  destruct v as [|x v'].
  { unfold getSubBlocks. cbn. reflexivity. }
  destruct HO as [HO|HO]; [discriminate|].
  pose proof (sub_sized _ _ HZ) as H. destruct (getSubBlocks buf (block_of o (Leaf t (x :: v')))) as [[cs|]| |] eqn:E; [| reflexivity| |destruct H].
  - exfalso. destruct H as (_ & _ & l & [= <-] & HT). apply HO.
    destruct HA as (a & c & EB & ->). rewrite wire_eq in EB. cbn [payload] in EB.
    apply tiles_lax in HT.
    + assert (ES : slice buf (b_off (block_of (zlen a) (Leaf t (x :: v'))) + b_typeLen (block_of (zlen a) (Leaf t (x :: v'))) + b_lengthLen (block_of (zlen a) (Leaf t (x :: v'))))
           (b_off (block_of (zlen a) (Leaf t (x :: v'))) + b_typeLen (block_of (zlen a) (Leaf t (x :: v'))) + b_lengthLen (block_of (zlen a) (Leaf t (x :: v'))) + zlen (x :: v')) = x :: v').
      { unfold slice. cbn [block_of b_off b_typeLen b_lengthLen e_type payload].
        match goal with |- firstn ?n (skipn ?k _) = _ => replace n with (length (x :: v')) by (unfold zlen; cbn; lia);
          replace k with (length (a ++ header (Leaf t (x :: v')))) by (rewrite app_length; unfold header; rewrite app_length; unfold zlen; cbn [e_type payload]; lia) end.
        rewrite EB, <- app_assoc, (app_assoc a), skipn_app, skipn_all, Nat.sub_diag. cbn [app skipn].
        rewrite (app_comm_cons v' c x), firstn_app, Nat.sub_diag, firstn_all. cbn [firstn]. apply app_nil_r. }
      cbn [payload] in HT. rewrite ES in HT. exact HT.
    + destruct HZ as (Z1 & (Z2 & _) & _). lia.
    + cbn [block_of b_off b_typeLen b_lengthLen e_type payload]. rewrite EB. unfold len. rewrite !app_length.
      unfold header. rewrite app_length. cbn [e_type payload]. unfold zlen. lia.
  - exfalso. destruct HQ as (Q1 & Q2 & Q3). destruct HZ as (Z1 & (Z2 & _) & _).
    apply (no_error_loop buf (block_of o (Leaf t (x :: v'))) (zlen (x :: v')) Q1 Q2 Q3 (zlen_pos _) eq_refl Z1 Z2
             (S (S (length buf))) (zlen (x :: v')) [] ltac:(lia)). exact E.
Qed.

(** what is found inside of a plain element *)
Definition inner (o : Z) (e : element) : option (list block) :=
  match e with
  | Leaf _ [] => Some []
  | Leaf _ _ => None
  | Node _ es => Some (blocks_of (o + zlen (header e)) es)
  end.
Lemma sub_plain buf o e : quiet buf -> well_formed e -> plain e -> at_ buf o e ->
  getSubBlocks buf (block_of o e) = Ok (inner o e).
Proof.
  intros HQ W P HA. destruct e as [t v|t es].
  - inversion W; inversion P; subst. rewrite sub_leaf by auto. destruct v; reflexivity.
  - inversion W; subst. apply sub_node; auto using quiet_short, wf_types.
Qed.

(** * Items *)
Lemma dict_facts z e : ndn_dict (LNum z) = Some e ->
  (e_value e = FmNonce -> z = 10) /\ (e_value e = FmHopLimit -> z = 34) /\ (e_value e = FmFinal -> z = 26) /\
  (e_value e = FmNackReason -> z = 801) /\ (e_value e = FmCachePolicy -> z = 821) /\ (e_value e = FmName <-> z = 7) /\
  (e_field e = FUint -> e_value e = FmNonce \/ e_value e = FmHopLimit \/ e_value e = FmInteger).
Proof.
  unfold ndn_dict. intros H.
  destruct z as [|p|p]; [discriminate| |discriminate].
  do 10 (try (destruct p as [p|p|]; try discriminate H)).
  all: injection H as <-; cbn; repeat split; (intros; congruence) || auto.
Qed.

Lemma nni_at buf o e : at_ buf o e -> exists z, getNonNegativeInteger buf (block_of o e) = Ok z.
Proof.
  intros H. unfold getNonNegativeInteger. rewrite (value_at _ _ _ H). destruct (_ || _); cbn; eauto.
Qed.

Lemma uri_at buf o e : at_ buf o e -> exists u, getUriFromName buf (inner o e) = Ok u.
Proof.
  intros HA. destruct e as [t v|t es].
  - destruct v; cbn; eauto.
  - cbn [inner]. rewrite uri_node by exact HA. eauto.
Qed.

Lemma addInfo_plain buf o e par : well_formed e -> plain e -> at_ buf o e ->
  exists it, addInfo buf (block_of o e) (inner o e) par = Ok it.
Proof.
  intros W P HA. unfold addInfo.
  assert (HF : field_ok e) by (inversion P; assumption). destruct HF as (F1 & F2 & F3).
  change (b_off (block_of o e)) with o. rewrite (range_whole _ _ _ HA). cbn [bind].
  change (b_type (block_of o e)) with (LNum (Z.of_N (e_type e))).
  destruct (ndn_dict (LNum (Z.of_N (e_type e)))) as [en|] eqn:ED.
  2: { assert (exists t, getGenericBlockInfo (block_of o e) = Ok t) as [t ->].
       { unfold getGenericBlockInfo, canIgnoreTlvType. cbn [block_of b_type lval].
         repeat match goal with |- context [if ?c then _ else _] => destruct c end; cbn [bind]; eauto. }
       cbn [bind field_accepts]. eauto. }
  apply dict_facts in ED. destruct ED as (D1 & D2 & D3 & D4 & D5 & D6 & D7).
  assert (HV : exists v, format buf (e_value en) (block_of o e) (inner o e) = Ok v /\
      (e_field en = FUint -> exists z, v = Some (VNumber z) \/ v = Some (VU64 z))).
  { assert (N7 : e_field en = FUint -> e_value en <> FmName /\ e_value en <> FmComponent /\ e_value en <> FmTrue /\
         e_value en <> FmFinal /\ e_value en <> FmNackReason /\ e_value en <> FmCachePolicy /\ e_value en <> FmNothing).
    { intros K. apply D7 in K. destruct K as [K|[K|K]]; rewrite K; repeat split; discriminate. }
    unfold format. destruct (e_value en) eqn:EV.
    - destruct (uri_at _ _ _ HA) as [u ->]. cbn. eexists. split; [reflexivity|]. intros K. apply N7 in K. tauto.
    - rewrite component_at by exact HA. cbn. eexists. split; [reflexivity|]. intros K. apply N7 in K. tauto.
    - eexists. split; [reflexivity|]. intros K. apply N7 in K. tauto.
    - specialize (D1 eq_refl). assert (ET : e_type e = 10%N) by lia. specialize (F1 ET).
      unfold getNonce. cbn [block_of b_type b_length]. rewrite D1. change (lis (LNum 10) 10) with true. cbn [bind].
      unfold zlen. rewrite F1. change (lis (LNum (Z.of_nat 4)) 4) with true. cbn [negb].
      rewrite (value_at _ _ _ HA). cbn [bind]. eexists. split; [reflexivity|]. intros _. eauto.
    - destruct (nni_at _ _ _ HA) as [z ->]. cbn. eexists. split; [reflexivity|]. intros _. eauto.
    - specialize (D2 eq_refl). assert (ET : e_type e = 34%N) by lia. specialize (F2 ET).
      unfold getHopLimit. cbn [block_of b_type b_length]. rewrite D2. change (lis (LNum 34) 34) with true. cbn [bind].
      unfold zlen. rewrite F2. change (lis (LNum (Z.of_nat 1)) 1) with true. cbn [negb].
      rewrite (value_at _ _ _ HA). cbn [bind]. eexists. split; [reflexivity|]. intros _. eauto.
    - specialize (D3 eq_refl). assert (ET : e_type e = 26%N) by lia. specialize (F3 ET).
      assert (exists t, getUriFromFinalBlockId buf (inner o e) = Ok t) as [t ->].
      { destruct e as [t v|t es]; cbn [inner payload] in *.
        - destruct v; [congruence|]. cbn. eauto.
        - destruct es as [|e es]; [cbn in F3; congruence|]. cbn [blocks_of getUriFromFinalBlockId].
          rewrite component_at; [eauto|]. apply at_sub in HA. destruct HA as (a & c & E & EA).
          exists a, (wires es ++ c). rewrite E, wires_cons, <- app_assoc. auto. }
      cbn. eexists. split; [reflexivity|]. intros K. apply N7 in K. tauto.
    - specialize (D4 eq_refl). unfold getNackReasonDetail. change (b_type (block_of o e)) with (LNum (Z.of_N (e_type e))).
      rewrite D4. change (lis (LNum 801) 801) with true. cbn match. destruct (nni_at _ _ _ HA) as [z ->]. cbn [bind].
      eexists. split; [reflexivity|]. intros K. apply N7 in K. tauto.
    - specialize (D5 eq_refl). unfold getCachePolicyDetail. change (b_type (block_of o e)) with (LNum (Z.of_N (e_type e))).
      rewrite D5. change (lis (LNum 821) 821) with true. cbn match. destruct (nni_at _ _ _ HA) as [z ->]. cbn [bind].
      eexists. split; [reflexivity|]. intros K. apply N7 in K. tauto.
    - eexists. split; [reflexivity|]. intros K. apply N7 in K. tauto. }
  destruct HV as (v & -> & HV). cbn [bind].
  destruct (match v with Some v => field_accepts (e_field en) v | None => true end) eqn:EA; [eauto|]. exfalso.
  destruct v as [v|]; [|discriminate]. destruct (e_field en) eqn:EF; try (destruct v; discriminate).
  destruct (HV eq_refl) as [z [E|E]]; injection E as ->; discriminate.
Qed.

(** * The queue of a packet of plain elements *)
Definition entry_of (q : Z * element * option nat) : block * option nat :=
  (block_of (fst (fst q)) (snd (fst q)), snd q).
Definition entry_ok (buf : list N) (q : Z * element * option nat) : Prop :=
  at_ buf (fst (fst q)) (snd (fst q)) /\ well_formed (snd (fst q)) /\ plain (snd (fst q)).
Definition entries_count (qs : list (Z * element * option nat)) : nat := list_sum (map (fun q => n_elements (snd (fst q))) qs).

Fixpoint located (o : Z) (es : list element) : list (Z * element) :=
  match es with [] => [] | e :: es' => (o, e) :: located (o + zlen (wire e)) es' end.
Lemma blocks_located es : forall o, blocks_of o es = map (fun p => block_of (fst p) (snd p)) (located o es).
Proof. induction es as [|e es IH]; intros o; [reflexivity|]. cbn. now rewrite IH. Qed.
Lemma located_snd es : forall o, map snd (located o es) = es.
Proof. induction es as [|e es IH]; intros o; [reflexivity|]. cbn. now rewrite IH. Qed.
Lemma located_at buf es : forall o, (exists a c, buf = a ++ wires es ++ c /\ zlen a = o) ->
  Forall (fun p => at_ buf (fst p) (snd p)) (located o es).
Proof.
  induction es as [|e es IH]; intros o (a & c & E & EA); [constructor|]. cbn [located]. constructor.
  - exists a, (wires es ++ c). cbn. rewrite E, wires_cons, <- app_assoc. auto.
  - apply IH. exists (a ++ wire e), c. rewrite E, wires_cons, <- !app_assoc, zlen_app. split; [reflexivity|lia].
Qed.
Lemma located_Forall (P : element -> Prop) es : forall o, Forall P es -> Forall (fun p => P (snd p)) (located o es).
Proof. intros o H. revert o. induction H; intros o; cbn; constructor; auto. Qed.

Lemma addTree_plain buf : quiet buf -> forall fuel qs items, Forall (entry_ok buf) qs -> (entries_count qs <= fuel)%nat ->
  exists out, addTree buf fuel (map entry_of qs) items = (Ok tt, out) /\ length out = (length items + entries_count qs)%nat.
Proof.
  intros HQ. induction fuel as [|fuel IH]; intros qs items HF HC.
  - destruct qs as [|[[o e] par] qs]; [exists items; cbn; split; [reflexivity|lia]|].
    exfalso. unfold entries_count in HC. cbn in HC. destruct e; cbn in HC; lia.
  - destruct qs as [|[[o e] par] qs]; [exists items; cbn; split; [reflexivity|lia]|].
    inversion_clear HF as [|? ? HE HF']. destruct HE as (A & W & P). cbn [fst snd] in *.
    cbn [map entry_of fst snd addTree]. rewrite (sub_plain _ _ _ HQ W P A).
    destruct (addInfo_plain _ _ _ par W P A) as [it ->].
    set (kids := match e with Leaf _ _ => [] | Node _ es => located (o + zlen (header e)) es end).
    assert (EK : match inner o e with Some es => es | None => [] end = map (fun p => block_of (fst p) (snd p)) kids).
    { unfold kids. destruct e as [t v|t es]; [destruct v; reflexivity|]. cbn [inner]. apply blocks_located. }
    rewrite EK, map_map.
    assert (EM : map entry_of qs ++ map (fun x => (block_of (fst x) (snd x), Some (length items))) kids =
                 map entry_of (qs ++ map (fun p => (p, Some (length items))) kids)).
    { rewrite map_app, map_map. f_equal. }
    rewrite EM.
    assert (KOK : Forall (entry_ok buf) (map (fun p => (p, Some (length items))) kids)).
    { apply Forall_map. unfold entry_ok. cbn [fst snd]. unfold kids. destruct e as [t v|t es]; [constructor|].
      inversion W; inversion P; subst.
      pose proof (located_at buf es _ (at_sub _ _ _ _ A)) as L1.
      assert (L2 : Forall (fun p => well_formed (snd p)) (located (o + zlen (header (Node t es))) es)) by (now apply located_Forall).
      assert (L3 : Forall (fun p => plain (snd p)) (located (o + zlen (header (Node t es))) es)) by (now apply located_Forall).
      rewrite Forall_forall in *. intros x Hx. auto. }
    assert (EC : entries_count ((o, e, par) :: qs) = S (entries_count (qs ++ map (fun p => (p, Some (length items))) kids))).
    { unfold entries_count. rewrite map_app, list_sum_app, map_map. cbn [map fst snd].
      assert (ES : map (fun x : Z * element => n_elements (snd x)) kids = match e with Leaf _ _ => [] | Node _ es => map n_elements es end).
      { unfold kids. destruct e as [t v|t es]; [reflexivity|]. rewrite <- (map_map snd n_elements), located_snd. reflexivity. }
      rewrite ES. destruct e; cbn [n_elements list_sum fold_right]; fold (list_sum); unfold list_sum; cbn [fold_right]; lia. }
    destruct (IH (qs ++ map (fun p => (p, Some (length items))) kids) (items ++ [it])) as (out & EO & LO).
    + apply Forall_app. split; assumption.
    + lia.
    + exists out. split; [exact EO|]. rewrite LO, app_length, EC. cbn [length]. lia.
Qed.

Lemma elements_bound e : 2 * Z.of_nat (n_elements e) <= zlen (wire e).
Proof.
  induction e as [t v|t es IH] using element_ind'.
  - pose proof (wire_pos (Leaf t v)). cbn [n_elements]. lia.
  - rewrite wire_len. cbn [n_elements payload].
    assert (2 * Z.of_nat (list_sum (map n_elements es)) <= zlen (wires es)); [|pose proof (header_pos (Node t es)); lia].
    induction IH as [|e es He _ IHes]; [cbn; lia|]. rewrite wires_len. cbn [map]. change (list_sum (n_elements e :: map n_elements es)) with (n_elements e + list_sum (map n_elements es))%nat. lia.
Qed.
