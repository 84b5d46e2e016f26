(** Proofs about the Wireshark dissector: the tree. *)
From Coq Require Import String.
From Verif Require Import Base BaseFacts TlvModel TlvProofs PingModel DumpModel WiresharkModel WiresharkSpec WiresharkProofs.
Open Scope Z_scope.

Lemma addInfo_item buf b els par it : addInfo buf b els par = Ok it ->
  it_off it = b_off b /\ it_size it = lval (b_size b) /\ it_type it = b_type b /\ it_parent it = par /\
  exists s, b_size b = LNum s /\ 0 <= b_off b /\ 0 <= s /\ b_off b + s <= len buf.
Proof.
  unfold addInfo. intros H.
  assert (K : forall name f v, bind (range buf (LNum (b_off b)) (b_size b)) (fun _ =>
      if match v with Some v => field_accepts f v | None => true end
      then Ok (Item (b_off b) (lval (b_size b)) (b_type b) par name v) else LuaError) = Ok it ->
      it_off it = b_off b /\ it_size it = lval (b_size b) /\ it_type it = b_type b /\ it_parent it = par /\
      exists s, b_size b = LNum s /\ 0 <= b_off b /\ 0 <= s /\ b_off b + s <= len buf).
  { intros name f v E. destruct (range buf (LNum (b_off b)) (b_size b)) as [r| |] eqn:ER; cbn [bind] in E; try discriminate.
    apply range_ok in ER. destruct ER as (o & n & [= <-] & En & H1 & H2 & H3 & _).
    destruct (match v with Some v => field_accepts f v | None => true end); [|discriminate].
    injection E as <-. cbn. repeat split. exists n. auto. }
  destruct (ndn_dict (b_type b)) as [e|].
  - destruct (format buf (e_value e) b els) as [v| |]; cbn [bind] in H; try discriminate. eapply K; eauto.
  - destruct (getGenericBlockInfo b) as [v| |]; cbn [bind] in H; try discriminate.
    apply (K ""%string FNone (Some (VText v)) H).
Qed.

Lemma wf_types es : Forall well_formed es -> Forall type_ok32 es.
Proof. apply Forall_impl. intros e H. inversion H; subst; cbn; unfold type_ok32; cbn; lia. Qed.

Lemma blocks_of_app es1 : forall o es2, blocks_of o (es1 ++ es2) = blocks_of o es1 ++ blocks_of (o + zlen (wires es1)) es2.
Proof.
  induction es1 as [|e es1 IH]; intros o es2; [cbn; now rewrite Z.add_0_r|].
  cbn [app blocks_of]. rewrite IH, wires_len. do 3 f_equal. lia.
Qed.
Lemma wires_app a b : wires (a ++ b) = wires a ++ wires b.
Proof. unfold wires. apply flat_map_app. Qed.

(** * Termination *)
Definition sized (buf : list N) (b : block) : Prop :=
  0 <= b_off b /\ real buf b /\ numeric (b_length b).
Definition size_of (b : block) : Z := lval (b_size b).

Lemma sized_size buf b : sized buf b -> exists l, b_length b = LNum l /\ 0 <= l /\
  b_size b = LNum (b_typeLen b + b_lengthLen b + l) /\ size_of b = b_typeLen b + b_lengthLen b + l /\ 2 <= b_typeLen b + b_lengthLen b.
Proof.
  intros (H1 & (R1 & R2 & R3) & (l & Hl & Hl0)). exists l. unfold size_of, b_size. rewrite Hl. cbn. repeat split; auto; lia.
Qed.

Lemma size_numeric b s : b_size b = LNum s -> exists l, b_length b = LNum l.
Proof. unfold b_size. destruct (b_length b); cbn; [eauto|discriminate]. Qed.

Fixpoint total (bs : list block) : Z := match bs with [] => 0 | b :: bs' => size_of b + total bs' end.
Lemma total_app a b : total (a ++ b) = total a + total b.
Proof. induction a as [|x a IH]; cbn [total app]; [lia|]. rewrite IH. lia. Qed.

Lemma tiles_sized buf cs : forall o e, 0 <= o -> tiles buf o e cs -> Forall (sized buf) cs /\ total cs = e - o.
Proof.
  induction cs as [|c cs IH]; intros o e Ho H; cbn [tiles] in H.
  - split; [constructor|cbn; lia].
  - destruct H as (H1 & _ & H2 & s & H3 & H4 & H5). apply IH in H5; [|lia]. destruct H5 as [H5 H6]. split.
    + constructor; [|exact H5]. repeat split; try lia; try apply H2.
      destruct (size_numeric _ _ H3) as [l Hl]. destruct H2 as (_ & _ & [H2|(v & Hv & _)]); [exact H2|congruence].
    + cbn [total]. unfold size_of at 1. rewrite H3, H6. cbn [lval]. lia.
Qed.

Lemma sub_sized buf b : sized buf b -> match getSubBlocks buf b with
  | Ok (Some cs) => Forall (sized buf) cs /\ total cs + 2 <= size_of b /\
      exists l, b_length b = LNum l /\ tiles buf (b_off b + b_typeLen b + b_lengthLen b) (b_off b + b_typeLen b + b_lengthLen b + l) cs
  | NoFuel => False
  | _ => True
  end.
Proof.
  intros HS. destruct (sized_size _ _ HS) as (l & Hl & Hl0 & _ & Hsz & Hh). destruct HS as (H1 & H2 & _).
  pose proof (getSubBlocks_cases buf b l Hl0 Hl H1 H2) as H. destruct (getSubBlocks buf b) as [[cs|]| |]; auto.
  destruct (tiles_sized buf cs (b_off b + b_typeLen b + b_lengthLen b) (b_off b + b_typeLen b + b_lengthLen b + l)) as [H3 H4]; [lia|exact H|].
  split; [exact H3|split; [lia|]]. exists l. auto.
Qed.

Lemma bind_fuel {A B} (r : res A) (f : A -> res B) : r <> NoFuel -> (forall a, f a <> NoFuel) -> bind r f <> NoFuel.
Proof. destruct r; cbn; auto; congruence. Qed.
Lemma range_fuel buf a b : range buf a b <> NoFuel.
Proof. unfold range. destruct a, b; try congruence. destruct (_ && _); congruence. Qed.
Lemma value_fuel buf b : getValue buf b <> NoFuel. Proof. apply range_fuel. Qed.
Ltac nofuel := repeat first
  [ congruence | apply value_fuel | apply range_fuel
  | match goal with
    | |- bind _ _ <> NoFuel => apply bind_fuel; [|intros]
    | |- (if ?c then _ else _) <> NoFuel => destruct c
    | |- match ?x with _ => _ end <> NoFuel => destruct x
    end ].
Lemma nni_fuel buf b : getNonNegativeInteger buf b <> NoFuel. Proof. unfold getNonNegativeInteger. nofuel. Qed.
Lemma comp_fuel buf b : getUriFromNameComponent buf b <> NoFuel.
Proof. unfold getUriFromNameComponent, getUriFromSha256DigestComponent. nofuel. Qed.
Lemma mapM_fuel {A B} (f : A -> res B) l : (forall a, f a <> NoFuel) -> mapM f l <> NoFuel.
Proof. intros H. induction l; cbn; [congruence|]. apply bind_fuel; [apply H|intros]. apply bind_fuel; [exact IHl|congruence]. Qed.
Lemma uri_fuel buf els : getUriFromName buf els <> NoFuel.
Proof. unfold getUriFromName. destruct els; [|congruence]. apply bind_fuel; [|congruence]. apply mapM_fuel, comp_fuel. Qed.
Lemma addInfo_fuel buf b els par : addInfo buf b els par <> NoFuel.
Proof.
  unfold addInfo, format, getUriFromFinalBlockId, getNonce, getHopLimit, getNackReasonDetail, getCachePolicyDetail, getGenericBlockInfo, canIgnoreTlvType.
  repeat first [apply nni_fuel | apply comp_fuel | apply uri_fuel | progress nofuel].
Qed.
Lemma note_fuel buf b els i : note buf b els i <> NoFuel.
Proof.
  unfold note. destruct i. destruct (lis (b_type b) 7); [|congruence]. apply bind_fuel; [apply uri_fuel|congruence].
Qed.

Lemma addTree_ends buf : forall fuel queue items, Forall (sized buf) (map fst queue) ->
  total (map fst queue) <= 2 * Z.of_nat fuel -> fst (addTree buf fuel queue items) <> NoFuel.
Proof.
  induction fuel as [|fuel IH]; intros [|[b par] queue] items HS HT; cbn [addTree map fst] in *; try (cbn; congruence).
  - exfalso. inversion_clear HS as [|? ? Hb Hq]. cbn [total] in HT. destruct (sized_size _ _ Hb) as (l & _ & ? & _ & ? & ?).
    assert (0 <= total (map fst queue)); [|lia].
    clear - Hq. induction Hq as [|x q Hx Hq IHq]; cbn [total]; [lia|]. destruct (sized_size _ _ Hx) as (? & _ & ? & _ & ? & ?). lia.
  - inversion_clear HS as [|? ? Hb Hq]. pose proof (sub_sized buf b Hb) as H.
    destruct (getSubBlocks buf b) as [els| |]; [|cbn; congruence|destruct H].
    pose proof (addInfo_fuel buf b els par) as HI. destruct (addInfo buf b els par) as [it| |]; [|cbn; congruence|congruence].
    apply IH.
    + rewrite map_app, map_map. cbn [fst]. rewrite map_id. apply Forall_app. split; [exact Hq|].
      destruct els as [cs|]; [apply H|constructor].
    + rewrite map_app, map_map. cbn [fst]. rewrite map_id, total_app.
      destruct (sized_size _ _ Hb) as (l & _ & Hl0 & _ & Hsz & Hh). cbn [total] in HT.
      destruct els as [cs|]; [lia|cbn [total]; lia].
Qed.

Definition weight (e : block * bool) : Z := if snd e then 1 else size_of (fst e).
Fixpoint weights (s : list (block * bool)) : Z := match s with [] => 0 | e :: s' => weight e + weights s' end.
Lemma weights_app a b : weights (a ++ b) = weights a + weights b.
Proof. induction a as [|x a IH]; cbn [weights app]; [lia|]. rewrite IH. lia. Qed.
Lemma weights_fresh cs : weights (rev (map (fun c => (c, false)) cs)) = total cs.
Proof. induction cs as [|c cs IH]; cbn [map rev total]; [reflexivity|]. rewrite weights_app, IH. cbn [weights weight]. unfold weight. cbn [fst snd]. lia. Qed.
Lemma weights_pos buf s : Forall (fun e => sized buf (fst e)) s -> 0 <= weights s.
Proof.
  induction 1 as [|[b v] s Hb _ IH]; cbn [weights]; [lia|]. cbn in Hb. destruct (sized_size _ _ Hb) as (? & _ & ? & _ & ? & ?).
  unfold weight. cbn [fst snd]. destruct v; lia.
Qed.

Lemma summarize_ends buf : forall fuel stack i, Forall (fun e => sized buf (fst e)) stack ->
  weights stack <= Z.of_nat fuel -> summarize buf fuel stack i <> NoFuel.
Proof.
  induction fuel as [|fuel IH]; intros [|[b v] stack] i HS HW; cbn [summarize]; try congruence.
  - exfalso. inversion_clear HS as [|? ? Hb Hq]. cbn [weights] in HW. pose proof (weights_pos _ _ Hq). unfold weight in HW. cbn [fst snd] in *.
    destruct (sized_size _ _ Hb) as (? & _ & ? & _ & ? & ?). destruct v; lia.
  - inversion_clear HS as [|? ? Hb Hq]. cbn [fst] in Hb. pose proof (sub_sized buf b Hb) as H.
    cbn [weights] in HW. unfold weight in HW. cbn [fst snd] in HW. destruct (sized_size _ _ Hb) as (l & _ & ? & _ & ? & ?).
    destruct (getSubBlocks buf b) as [els| |]; cbn [bind]; [|congruence|destruct H].
    apply bind_fuel; [apply note_fuel|]. intros i'. destruct els as [cs|].
    + destruct v.
      * apply IH; [exact Hq|lia].
      * apply IH.
        -- apply Forall_app. split; [|constructor; auto]. apply Forall_rev, Forall_map. cbn. apply H.
        -- rewrite weights_app, weights_fresh. cbn [weights]. unfold weight at 1. cbn [snd]. lia.
    + apply IH; [exact Hq|]. destruct v; lia.
Qed.
