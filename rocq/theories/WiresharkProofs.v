(** Proofs about the Wireshark dissector: reading elements, and termination. *)
From Coq Require Import String.
From Verif Require Import Base BaseFacts TlvModel TlvProofs PingModel DumpModel WiresharkModel WiresharkSpec.
Open Scope Z_scope.

Lemma zlen_app a b : zlen (a ++ b) = zlen a + zlen b.
Proof. unfold zlen. rewrite app_length. lia. Qed.
Lemma zlen_pos l : 0 <= zlen l. Proof. unfold zlen. lia. Qed.

Lemma range_mid a m c : range (a ++ m ++ c) (LNum (zlen a)) (LNum (zlen m)) = Ok m.
Proof.
  unfold range, len. rewrite !app_length. unfold zlen.
  destruct ((0 <=? Z.of_nat (length a)) && (0 <=? Z.of_nat (length m)) &&
            (Z.of_nat (length a) + Z.of_nat (length m) <=? Z.of_nat (length a + (length m + length c)))) eqn:E; [|lia].
  rewrite !Nat2Z.id, skipn_app, skipn_all, Nat.sub_diag. cbn [app skipn].
  now rewrite firstn_app, Nat.sub_diag, firstn_all, app_nil_r.
Qed.
Lemma range_at a m c k l : k = zlen a -> l = zlen m -> range (a ++ m ++ c) (LNum k) (LNum l) = Ok m.
Proof. intros -> ->. apply range_mid. Qed.

Lemma read_var_ok a n c : (n < 4294967296)%N -> (n < 253)%N \/ c <> [] ->
  readVarNumber (a ++ var_number n ++ c) (LNum (zlen a)) = Ok (LNum (Z.of_N n), zlen (var_number n)).
Proof.
  intros Hn Hc. unfold readVarNumber. cbn [lval ladd].
  assert (HL : len (a ++ var_number n ++ c) = zlen a + zlen (var_number n) + zlen c).
  { unfold len, zlen. rewrite !app_length. lia. }
  rewrite HL. pose proof (zlen_pos a). pose proof (zlen_pos c).
  assert (Hc' : (n < 253)%N \/ 0 < zlen c) by (destruct Hc; [tauto|right; destruct c; [congruence|unfold zlen; cbn; lia]]).
  unfold var_number.
  destruct (N.ltb_spec n 253) as [H1|H1].
  { change (zlen [n]) with 1. destruct (Z.leb_spec (zlen a + 1 + zlen c) (zlen a)); [lia|].
    rewrite (range_at a [n] c) by reflexivity. cbn [bind]. change (uint [n]) with (Z.of_N n).
    destruct (Z.ltb_spec (Z.of_N n) 253); [reflexivity|lia]. }
  assert (0 < zlen c) by lia. clear Hc Hc'.
  destruct (N.ltb_spec n 65536) as [K2|K2].
  { assert (L : zlen (253%N :: be 2 n) = 3) by (unfold zlen; cbn [length]; rewrite be_length; reflexivity).
    rewrite L. destruct (Z.leb_spec (zlen a + 3 + zlen c) (zlen a)); [lia|].
    cbn [app]. rewrite (range_at a [253%N] (be 2 n ++ c)) by reflexivity. cbn [bind].
    change (uint [253%N]) with 253. cbn match. change (253 <? 253) with false. change (253 =? 253) with true.
    destruct (Z.ltb_spec (zlen a + 3) (zlen a + 3 + zlen c)); [|lia]. cbn [andb].
    assert (B : a ++ 253%N :: be 2 n ++ c = (a ++ [253%N]) ++ be 2 n ++ c) by (now rewrite <- app_assoc).
    rewrite B. rewrite range_at; [|rewrite zlen_app; reflexivity|unfold zlen; rewrite be_length; reflexivity].
    cbn [bind]. unfold uint. rewrite of_be_be by (rewrite pow256_2; lia). reflexivity. }
  destruct (N.ltb_spec n 4294967296) as [K3|K3]; [|lia].
  assert (L : zlen (254%N :: be 4 n) = 5) by (unfold zlen; cbn [length]; rewrite be_length; reflexivity).
  rewrite L. destruct (Z.leb_spec (zlen a + 5 + zlen c) (zlen a)); [lia|].
  cbn [app]. rewrite (range_at a [254%N] (be 4 n ++ c)) by reflexivity. cbn [bind].
  change (uint [254%N]) with 254. cbn match. change (254 <? 253) with false. change (254 =? 253) with false.
  change (254 =? 254) with true. cbn [andb].
  destruct (Z.ltb_spec (zlen a + 5) (zlen a + 5 + zlen c)); [|lia].
  assert (B : a ++ 254%N :: be 4 n ++ c = (a ++ [254%N]) ++ be 4 n ++ c) by (now rewrite <- app_assoc).
  rewrite B. rewrite range_at; [|rewrite zlen_app; reflexivity|unfold zlen; rewrite be_length; reflexivity].
  cbn [bind]. unfold uint. rewrite of_be_be by (rewrite pow256_4; lia). reflexivity.
Qed.

(** * Elements *)
Section ElementInd.
  Variable P : element -> Prop.
  Variable HL : forall t v, P (Leaf t v).
  Variable HN : forall t es, Forall P es -> P (Node t es).
  Fixpoint element_ind' (e : element) : P e :=
    match e with
    | Leaf t v => HL t v
    | Node t es => HN t es ((fix go l : Forall P l := match l with [] => Forall_nil P | x :: l' => Forall_cons x (element_ind' x) (go l') end) es)
    end.
End ElementInd.

Lemma wire_eq e : wire e = header e ++ payload e.
Proof. destruct e; cbn [wire header payload e_type]; unfold header, tlv; cbn [e_type payload]; now rewrite <- app_assoc. Qed.
Lemma header_pos e : 2 <= zlen (header e).
Proof.
  unfold header. rewrite zlen_app. pose proof (var_number_nonempty (e_type e)).
  pose proof (var_number_nonempty (N.of_nat (length (payload e)))). unfold zlen. lia.
Qed.
Lemma wire_len e : zlen (wire e) = zlen (header e) + zlen (payload e).
Proof. now rewrite wire_eq, zlen_app. Qed.

(** the block that the dissector makes of an element at offset [o] *)
Definition block_of (o : Z) (e : element) : block :=
  Block o (LNum (Z.of_N (e_type e))) (zlen (var_number (e_type e)))
        (LNum (zlen (payload e))) (zlen (var_number (N.of_nat (length (payload e))))).
Lemma block_size o e : b_size (block_of o e) = LNum (zlen (wire e)).
Proof. unfold b_size, block_of. cbn. f_equal. rewrite wire_len. unfold header. rewrite zlen_app. lia. Qed.

Definition type_ok32 (e : element) : Prop := (e_type e < 4294967296)%N.
Definition short (buf : list N) : Prop := zlen buf < 4294967296.

Definition at_ (buf : list N) (o : Z) (e : element) : Prop :=
  exists a c, buf = a ++ wire e ++ c /\ o = zlen a.

Lemma getBlock_at buf o e : type_ok32 e -> short buf -> at_ buf o e ->
  getBlock buf (LNum o) = Ok (Some (block_of o e)).
Proof.
  intros Ht HS (a & c & -> & ->). unfold getBlock.
  assert (Hl : (N.of_nat (length (payload e)) < 4294967296)%N).
  { unfold short in HS. rewrite zlen_app, zlen_app, wire_len in HS. pose proof (zlen_pos a). pose proof (zlen_pos c).
    pose proof (zlen_pos (header e)). unfold zlen in *. lia. }
  rewrite wire_eq. unfold header. rewrite <- !app_assoc.
  rewrite read_var_ok; [|exact Ht|right; intros E; pose proof (var_number_nonempty (N.of_nat (length (payload e)))) as H;
    apply app_eq_nil in E; destruct E as [E _]; rewrite E in H; cbn in H; lia].
  cbn [bind]. destruct (Z.eqb_spec (zlen (var_number (e_type e))) 0) as [E|_].
  { pose proof (var_number_nonempty (e_type e)). unfold zlen in E. lia. }
  cbn [ladd]. rewrite (app_assoc a). rewrite <- zlen_app.
  rewrite read_var_ok; [|exact Hl|].
  2: { destruct (payload e) as [|x l] eqn:E; [left; reflexivity|]. right. discriminate. }
  cbn [bind]. destruct (Z.eqb_spec (zlen (var_number (N.of_nat (length (payload e))))) 0) as [E|_].
  { pose proof (var_number_nonempty (N.of_nat (length (payload e)))). unfold zlen in E. lia. }
  unfold block_of. cbn [lval]. repeat f_equal. unfold zlen. lia.
Qed.

(** * Blocks inside of a block *)
Fixpoint blocks_of (o : Z) (es : list element) : list block :=
  match es with [] => [] | e :: es' => block_of o e :: blocks_of (o + zlen (wire e)) es' end.

Lemma wires_cons e es : wires (e :: es) = wire e ++ wires es. Proof. reflexivity. Qed.
Lemma wires_len e es : zlen (wires (e :: es)) = zlen (wire e) + zlen (wires es).
Proof. now rewrite wires_cons, zlen_app. Qed.
Lemma wire_pos e : 2 <= zlen (wire e).
Proof. rewrite wire_len. pose proof (header_pos e). pose proof (zlen_pos (payload e)). lia. Qed.

Lemma subLoop_elements buf b done_ es rest subs fuel :
  short buf -> Forall type_ok32 es ->
  buf = done_ ++ wires es ++ rest ->
  b_off b + b_typeLen b + b_lengthLen b + lval (b_length b) = zlen done_ + zlen (wires es) ->
  (exists l, b_length b = LNum l) ->
  (length es < fuel)%nat ->
  subLoop buf fuel b (LNum (zlen (wires es))) subs = Ok (Some (subs ++ blocks_of (zlen done_) es)).
Proof.
  intros HS HT. revert done_ subs fuel. induction HT as [|e es He HT IH]; intros done_ subs fuel EB HO [l Hl] HF.
  - destruct fuel; cbn; now rewrite app_nil_r.
  - destruct fuel as [|fuel]; [cbn in HF; lia|]. cbn [subLoop lval].
    pose proof (wire_pos e) as Hp. pose proof (zlen_pos (wires es)) as Hq. rewrite wires_len in *.
    destruct (Z.ltb_spec 0 (zlen (wire e) + zlen (wires es))); [|lia].
    rewrite Hl in *. cbn [lsub ladd lval] in *.
    replace (b_off b + b_typeLen b + b_lengthLen b + (l - (zlen (wire e) + zlen (wires es)))) with (zlen done_) by lia.
    rewrite (getBlock_at buf (zlen done_) e He HS).
    2: { exists done_, (wires es ++ rest). split; [|reflexivity]. rewrite EB, wires_cons, <- !app_assoc. reflexivity. }
    cbn [bind]. rewrite block_size. cbn [lsub].
    replace (zlen (wire e) + zlen (wires es) - zlen (wire e)) with (zlen (wires es)) by lia.
    rewrite (IH (done_ ++ wire e)).
    + cbn [blocks_of]. rewrite zlen_app, <- app_assoc. reflexivity.
    + rewrite EB, wires_cons, <- !app_assoc. reflexivity.
    + rewrite zlen_app. lia.
    + eauto.
    + cbn in HF. lia.
Qed.

Lemma elements_count es : Z.of_nat (length es) * 2 <= zlen (wires es).
Proof.
  induction es as [|e es IH]; [cbn; lia|]. rewrite wires_len. pose proof (wire_pos e). cbn [length]. lia.
Qed.

Lemma sub_node buf o t es : short buf -> Forall type_ok32 es -> at_ buf o (Node t es) ->
  getSubBlocks buf (block_of o (Node t es)) = Ok (Some (blocks_of (o + zlen (header (Node t es))) es)).
Proof.
  intros HS HT (a & c & EB & ->). unfold getSubBlocks.
  rewrite wire_eq in EB. cbn [payload] in EB.
  change (b_length (block_of (zlen a) (Node t es))) with (LNum (zlen (wires es))).
  rewrite (subLoop_elements buf (block_of (zlen a) (Node t es)) (a ++ header (Node t es)) es c []); auto.
  - cbn [app]. now rewrite zlen_app.
  - rewrite EB, <- !app_assoc. reflexivity.
  - cbn. rewrite zlen_app. unfold header. rewrite zlen_app. cbn [e_type payload]. lia.
  - cbn. eauto.
  - pose proof (elements_count es). rewrite EB, !app_length. unfold zlen in *. lia.
Qed.

Lemma at_sub buf o t es : at_ buf o (Node t es) ->
  exists a c, buf = a ++ wires es ++ c /\ zlen a = o + zlen (header (Node t es)).
Proof.
  intros (a & c & E & ->). exists (a ++ header (Node t es)), c. rewrite wire_eq in E. cbn [payload] in E.
  split; [rewrite E, <- !app_assoc; reflexivity|]. rewrite zlen_app. lia.
Qed.

(** * What any block looks like *)
Definition numeric (n : lnum) : Prop := exists z, n = LNum z /\ 0 <= z.

Lemma of_be_small l : (0 <= uint l). Proof. unfold uint. lia. Qed.

Lemma range_ok buf off k r : range buf off k = Ok r ->
  exists o n, off = LNum o /\ k = LNum n /\ 0 <= o /\ 0 <= n /\ o + n <= len buf /\
  r = firstn (Z.to_nat n) (skipn (Z.to_nat o) buf) /\ zlen r = n.
Proof.
  unfold range. destruct off as [o|o]; [|discriminate]. destruct k as [n|n]; [|discriminate].
  destruct ((0 <=? o) && (0 <=? n) && (o + n <=? len buf)) eqn:E; [|discriminate]. intros [= <-].
  exists o, n. unfold len, zlen in *. rewrite firstn_length, skipn_length. repeat split; lia.
Qed.

Lemma readVar_cases buf off : match readVarNumber buf off with
  | Ok (n, k) => (k = 0) \/
      (exists o, off = LNum o /\ (k = 1 \/ k = 3 \/ k = 5) /\ numeric n /\ o + k <= len buf) \/
      (exists o, off = LNum o /\ k = 9 /\ o + 9 < len buf /\ exists v, n = LU64 v /\ 0 <= v)
  | LuaError => (exists z, off = LU64 z) \/ (exists o, off = LNum o /\ o < 0)
  | NoFuel => False
  end.
Proof.
  unfold readVarNumber. destruct (Z.leb_spec (len buf) (lval off)) as [H|H]; [left; reflexivity|].
  destruct off as [o|o]; [|cbn; eauto]. cbn [lval ladd] in *.
  destruct (Z.leb_spec 0 o) as [Ho|Ho].
  2: { assert (E : forall n, range buf (LNum o) n = LuaError) by (intros [n|n]; unfold range; [destruct (Z.leb_spec 0 o); [lia|]|]; reflexivity).
       rewrite E. cbn [bind]. eauto. }
  assert (R : forall i n, 0 <= i -> 0 <= n -> o + i + n <= len buf -> exists r, range buf (LNum (o + i)) (LNum n) = Ok r).
  { intros i n Hi Hn Hin. unfold range. destruct ((0 <=? o + i) && (0 <=? n) && (o + i + n <=? len buf)) eqn:E; [eauto|lia]. }
  destruct (R 0 1) as [r Er]; [lia..|]. rewrite Z.add_0_r in Er. rewrite Er. cbn [bind].
  destruct (uint r <? 253). { right. left. exists o. repeat split; auto; [|lia]. exists (uint r). split; [reflexivity|apply of_be_small]. }
  destruct ((uint r =? 253) && (o + 3 <? len buf)) eqn:E1.
  { destruct (R 1 2) as [v Ev]; [lia..|]. rewrite Ev. cbn [bind]. right. left. exists o. repeat split; auto; [|lia].
    exists (uint v). split; [reflexivity|apply of_be_small]. }
  destruct ((uint r =? 254) && (o + 5 <? len buf)) eqn:E2.
  { destruct (R 1 4) as [v Ev]; [lia..|]. rewrite Ev. cbn [bind]. right. left. exists o. repeat split; auto; [|lia].
    exists (uint v). split; [reflexivity|apply of_be_small]. }
  destruct ((uint r =? 255) && (o + 9 <? len buf)) eqn:E3.
  { destruct (R 1 8) as [v Ev]; [lia..|]. rewrite Ev. cbn [bind]. right. right. exists o. repeat split; auto; [lia|].
    exists (uint v). split; [reflexivity|apply of_be_small]. }
  left. reflexivity.
Qed.

(** a block as returned by getBlock *)
Definition real (buf : list N) (b : block) : Prop :=
  2 <= b_typeLen b + b_lengthLen b <= 18 /\
  b_off b + b_typeLen b + b_lengthLen b <= len buf /\
  (numeric (b_length b) \/ exists v, b_length b = LU64 v /\ 0 <= v).

Lemma getBlock_cases buf off : match getBlock buf off with
  | Ok None => True
  | Ok (Some b) => off = LNum (b_off b) /\ real buf b
  | LuaError => (exists z, off = LU64 z) \/ (exists o, off = LNum o /\ o < 0)
  | NoFuel => False
  end.
Proof.
  unfold getBlock. pose proof (readVar_cases buf off) as H. destruct (readVarNumber buf off) as [[t tl]| |]; cbn [bind]; auto.
  destruct (Z.eqb_spec tl 0) as [|Hz]; [exact I|].
  destruct H as [H|H]; [contradiction|].
  assert (HO : exists o, off = LNum o /\ 1 <= tl <= 9) by (destruct H as [(o & H1 & H2 & _)|(o & H1 & H2 & _)]; exists o; split; auto; lia).
  destruct HO as (o & -> & Htl). cbn [ladd lval].
  pose proof (readVar_cases buf (LNum (o + tl))) as H'. destruct (readVarNumber buf (LNum (o + tl))) as [[l ll]| |]; cbn [bind].
  - destruct (Z.eqb_spec ll 0) as [|Hz']; [exact I|]. cbn [lval]. split; [reflexivity|].
    destruct H' as [H'|[(o' & [= <-] & H2 & H3 & H4)|(o' & [= <-] & H2 & H3 & H4)]]; [contradiction|..];
      unfold real; cbn; repeat split; try lia; [left; exact H3|right; exact H4].
  - destruct H' as [[z H']|(o' & [= <-] & H')]; [discriminate|].
    right. exists o. split; [reflexivity|lia].
  - destruct H'.
Qed.

(** [cs] fill the octets from [o] on, up to [e] *)
Fixpoint tiles (buf : list N) (o e : Z) (cs : list block) : Prop :=
  match cs with
  | [] => o = e
  | c :: cs' => b_off c = o /\ getBlock buf (LNum o) = Ok (Some c) /\ real buf c /\
      exists s, b_size c = LNum s /\ 2 <= s /\ tiles buf (o + s) e cs'
  end.

Lemma tiles_snoc buf cs : forall o m e c s, tiles buf o m cs -> b_off c = m -> getBlock buf (LNum m) = Ok (Some c) ->
  real buf c -> b_size c = LNum s -> 2 <= s -> e = m + s -> tiles buf o e (cs ++ [c]).
Proof.
  induction cs as [|d cs IH]; intros o m e c s HT H1 H2 H3 H4 H5 ->; cbn [app tiles] in *.
  - subst o. split; [exact H1|split; [exact H2|split; [exact H3|]]]. exists s. auto.
  - destruct HT as (Hd & HG & HR & s' & Hs & Hs2 & HT). split; [exact Hd|split; [exact HG|split; [exact HR|]]].
    exists s'. split; [exact Hs|split; [exact Hs2|]]. eapply IH; eauto.
Qed.
Lemma tiles_le buf cs : forall o e, tiles buf o e cs -> o + 2 * Z.of_nat (length cs) <= e.
Proof.
  induction cs as [|c cs IH]; intros o e H; cbn [tiles] in H.
  - cbn. lia.
  - destruct H as (_ & _ & _ & s & _ & Hs & H). apply IH in H. cbn [length]. lia.
Qed.

(** once a UInt64 is left, the loop ends without result *)
Lemma subLoop_u64 buf fuel b v subs : (1 <= fuel)%nat -> match subLoop buf fuel b (LU64 v) subs with
  | Ok None => True | LuaError => True | _ => False end.
Proof.
  destruct fuel as [|fuel]; [lia|]. intros _. cbn [subLoop lval].
  destruct (0 <? v); [|cbn; exact I].
  destruct (b_length b) as [l|l]; cbn [lsub ladd].
  all: match goal with |- context [getBlock ?bb ?o] => pose proof (getBlock_cases bb o) as H; destruct (getBlock bb o) as [[c|]| |] end; cbn [bind]; auto.
  all: try contradiction; try (destruct H as [H _]; discriminate).
Qed.

Lemma subLoop_cases buf b l : 0 <= l -> b_length b = LNum l -> 0 <= b_off b + b_typeLen b + b_lengthLen b ->
  forall fuel left subs m, m = b_off b + b_typeLen b + b_lengthLen b + l - left ->
  left <= l ->
  tiles buf (b_off b + b_typeLen b + b_lengthLen b) m subs ->
  len buf - m + 2 <= Z.of_nat fuel ->
  (left <= 0 \/ m <= len buf \/ (1 <= fuel)%nat) ->
  match subLoop buf fuel b (LNum left) subs with
  | Ok None => True
  | Ok (Some cs) => tiles buf (b_off b + b_typeLen b + b_lengthLen b) (b_off b + b_typeLen b + b_lengthLen b + l) cs
  | LuaError => True
  | NoFuel => False
  end.
Proof.
  intros Hl0 Hl HO. induction fuel as [|fuel IH]; intros left subs m Hm Hle HT HF Hx.
  - cbn [subLoop lval]. destruct (Z.ltb_spec 0 left) as [H|H]; [exfalso; lia|].
    cbn [lis]. destruct (Z.eqb_spec left 0); [|exact I]. subst left. replace m with (b_off b + b_typeLen b + b_lengthLen b + l) in HT by lia. exact HT.
  - cbn [subLoop lval]. destruct (Z.ltb_spec 0 left) as [H|H].
    2: { cbn [lis]. destruct (Z.eqb_spec left 0); [|exact I]. subst left. replace m with (b_off b + b_typeLen b + b_lengthLen b + l) in HT by lia. exact HT. }
    rewrite Hl. cbn [lsub ladd].
    replace (b_off b + b_typeLen b + b_lengthLen b + (l - left)) with m by lia.
    pose proof (getBlock_cases buf (LNum m)) as HG.
    destruct (getBlock buf (LNum m)) as [[c|]| |] eqn:EG; cbn [bind]; auto.
    destruct HG as [HG1 HG2]. injection HG1 as HG1. destruct HG2 as (G1 & G2 & G3).
    unfold b_size. destruct G3 as [(z & Hz & Hz0)|(v & Hv & Hv0)].
    + rewrite Hz. cbn [ladd lsub]. apply (IH _ _ (m + (b_typeLen c + b_lengthLen c + z))); try lia.
      eapply tiles_snoc; [exact HT|symmetry; exact HG1|rewrite EG; reflexivity| | |..].
      * unfold real. repeat split; try lia. left. exists z. auto.
      * unfold b_size. rewrite Hz. reflexivity.
      * lia.
      * reflexivity.
    + rewrite Hv. cbn [ladd lsub]. 
      assert (1 <= fuel)%nat by lia.
      pose proof (subLoop_u64 buf fuel b (wrap64 (lval (LNum left) - lval (LU64 (wrap64 (lval (LNum (b_typeLen c + b_lengthLen c)) + lval (LU64 v)))))) (subs ++ [c]) H0) as HU.
      destruct (subLoop buf fuel b _ (subs ++ [c])) as [[cs|]| |]; auto; destruct HU.
Qed.

Lemma getSubBlocks_cases buf b l : 0 <= l -> b_length b = LNum l -> 0 <= b_off b -> real buf b ->
  match getSubBlocks buf b with
  | Ok None => True
  | Ok (Some cs) => tiles buf (b_off b + b_typeLen b + b_lengthLen b) (b_off b + b_typeLen b + b_lengthLen b + l) cs
  | LuaError => True
  | NoFuel => False
  end.
Proof.
  intros Hl0 Hl HO HR. unfold getSubBlocks. rewrite Hl. destruct HR as (R1 & R2 & R3).
  apply (subLoop_cases buf b l Hl0 Hl ltac:(lia) _ l [] (b_off b + b_typeLen b + b_lengthLen b)); cbn; try lia. 
  unfold len. lia.
Qed.
