(** Proofs about the Wireshark dissector: what is shown is there; packets of plain elements are
    shown exactly. *)
From Coq Require Import String.
From Verif Require Import Base BaseFacts TlvModel TlvProofs PingModel DumpModel WiresharkModel WiresharkSpec WiresharkProofs WiresharkProofs2.
Open Scope Z_scope.

Lemma skipn_plus {A} (l : list A) i j : skipn (i + j) l = skipn j (skipn i l).
Proof. revert l. induction i as [|i IH]; intros l; [reflexivity|]. destruct l; [now rewrite !skipn_nil|]. apply IH. Qed.

Lemma range_skip buf o i n r : 0 <= o -> 0 <= i -> range buf (LNum (o + i)) (LNum n) = Ok r ->
  r = firstn (Z.to_nat n) (skipn (Z.to_nat i) (skipn (Z.to_nat o) buf)) /\ length r = Z.to_nat n.
Proof.
  intros Ho Hi H. apply range_ok in H. destruct H as (o' & n' & [= <-] & [= <-] & H1 & H2 & H3 & H4 & H5).
  rewrite Z2Nat.inj_add, skipn_plus in H4 by lia. split; [exact H4|]. unfold zlen in H5. lia.
Qed.

Lemma readVar_lax buf o n k : 0 <= o -> readVarNumber buf (LNum o) = Ok (n, k) -> k <> 0 ->
  exists bs rest, skipn (Z.to_nat o) buf = bs ++ rest /\ zlen bs = k /\ lax_number (Z.to_N (lval n)) bs /\
  (forall v, n = LU64 v -> exists l, bs = 255%N :: l /\ length l = 8%nat /\ v = uint l).
Proof.
  intros Ho H Hk. unfold readVarNumber in H. cbn [lval ladd] in H.
  destruct (len buf <=? o); [injection H as <- <-; contradiction|].
  destruct (range buf (LNum o) (LNum 1)) as [r| |] eqn:E1; cbn [bind] in H; [|discriminate..].
  assert (E1' := E1). rewrite <- (Z.add_0_r o) in E1'. apply range_skip in E1'; [|lia..]. destruct E1' as [Er Lr].
  change (Z.to_nat 1) with 1%nat in *. change (Z.to_nat 0) with 0%nat in *. cbn [skipn] in Er.
  destruct (skipn (Z.to_nat o) buf) as [|x tl] eqn:ES; [subst r; discriminate|]. cbn in Er. subst r.
  change (uint [x]) with (Z.of_N x) in H.
  destruct (Z.ltb_spec (Z.of_N x) 253).
  { injection H as <- <-. exists [x], tl. cbn [lval]. rewrite N2Z.id. repeat split; [constructor; lia|discriminate]. }
  destruct ((Z.of_N x =? 253) && (o + 3 <? len buf)) eqn:C1.
  { destruct (range buf (LNum (o + 1)) (LNum 2)) as [r| |] eqn:E2; cbn [bind] in H; [|discriminate..]. injection H as <- <-.
    apply range_skip in E2; [|lia..]. rewrite ES in E2. destruct E2 as [E2 L2].
    change (Z.to_nat 1) with 1%nat in *. cbn [skipn] in E2. assert (x = 253%N) by lia. subst x.
    exists (253%N :: r), (skipn 2 tl). cbn [lval]. split; [rewrite E2; cbn [app]; change (Z.to_nat 2) with 2%nat; now rewrite firstn_skipn|].
    split; [unfold zlen; cbn [length]; rewrite L2; reflexivity|]. split; [|discriminate]. unfold uint. rewrite N2Z.id. constructor. exact L2. }
  destruct ((Z.of_N x =? 254) && (o + 5 <? len buf)) eqn:C2.
  { destruct (range buf (LNum (o + 1)) (LNum 4)) as [r| |] eqn:E2; cbn [bind] in H; [|discriminate..]. injection H as <- <-.
    apply range_skip in E2; [|lia..]. rewrite ES in E2. destruct E2 as [E2 L2].
    change (Z.to_nat 1) with 1%nat in *. cbn [skipn] in E2. assert (x = 254%N) by lia. subst x.
    exists (254%N :: r), (skipn 4 tl). cbn [lval]. split; [rewrite E2; cbn [app]; change (Z.to_nat 4) with 4%nat; now rewrite firstn_skipn|].
    split; [unfold zlen; cbn [length]; rewrite L2; reflexivity|]. split; [|discriminate]. unfold uint. rewrite N2Z.id. constructor. exact L2. }
  destruct ((Z.of_N x =? 255) && (o + 9 <? len buf)) eqn:C3; [|injection H as <- <-; contradiction].
  destruct (range buf (LNum (o + 1)) (LNum 8)) as [r| |] eqn:E2; cbn [bind] in H; [|discriminate..]. injection H as <- <-.
  apply range_skip in E2; [|lia..]. rewrite ES in E2. destruct E2 as [E2 L2].
  change (Z.to_nat 1) with 1%nat in *. cbn [skipn] in E2. assert (x = 255%N) by lia. subst x.
  exists (255%N :: r), (skipn 8 tl). cbn [lval]. split; [rewrite E2; cbn [app]; change (Z.to_nat 8) with 8%nat; now rewrite firstn_skipn|].
  split; [unfold zlen; cbn [length]; rewrite L2; reflexivity|]. split; [unfold uint; rewrite N2Z.id; constructor; exact L2|].
  intros v [= <-]. exists r. auto.
Qed.

(** the octets of a block *)
Lemma getBlock_lax buf o b : 0 <= o -> getBlock buf (LNum o) = Ok (Some b) ->
  b_off b = o /\ real buf b /\
  exists bt bl rest, skipn (Z.to_nat o) buf = bt ++ bl ++ rest /\
  zlen bt = b_typeLen b /\ zlen bl = b_lengthLen b /\
  lax_number (Z.to_N (lval (b_type b))) bt /\ lax_number (Z.to_N (lval (b_length b))) bl /\
  (forall v, b_length b = LU64 v -> exists l, bl = 255%N :: l /\ length l = 8%nat /\ v = uint l).
Proof.
  intros Ho H. pose proof (getBlock_cases buf (LNum o)) as HC. rewrite H in HC. destruct HC as [HC HR]. injection HC as HC.
  split; [symmetry; exact HC|]. split; [exact HR|].
  unfold getBlock in H. destruct (readVarNumber buf (LNum o)) as [[t tl]| |] eqn:E1; cbn [bind] in H; [|discriminate..].
  destruct (Z.eqb_spec tl 0) as [|N1]; [discriminate|].
  destruct (readVarNumber buf (ladd (LNum o) (LNum tl))) as [[l ll]| |] eqn:E2; cbn [bind] in H; [|discriminate..].
  destruct (Z.eqb_spec ll 0) as [|N2]; [discriminate|]. injection H as H. subst b. cbn [b_off b_type b_typeLen b_length b_lengthLen lval] in *.
  apply readVar_lax in E1; auto. destruct E1 as (bt & rest & B1 & B2 & B3 & _).
  cbn [ladd] in E2. apply readVar_lax in E2; [|pose proof (zlen_pos bt); lia|assumption]. destruct E2 as (bl & rest' & C1 & C2 & C3 & C4).
  rewrite Z2Nat.inj_add in C1 by (pose proof (zlen_pos bt); lia). rewrite skipn_plus, B1 in C1.
  assert (T : Z.to_nat tl = length bt) by (unfold zlen in B2; lia).
  rewrite T, skipn_app, skipn_all, Nat.sub_diag in C1. cbn [skipn app] in C1.
  exists bt, bl, rest'. rewrite B1, C1. repeat split; auto.
Qed.

Definition slice (buf : list N) (o e : Z) : list N := firstn (Z.to_nat (e - o)) (skipn (Z.to_nat o) buf).

Lemma skipn_len buf o : 0 <= o -> zlen (skipn (Z.to_nat o) buf) = Z.max 0 (len buf - o).
Proof. intros H. unfold zlen, len. rewrite skipn_length. lia. Qed.

(** blocks that fill a stretch of the buffer are elements *)
Lemma tiles_lax buf cs : forall o e, 0 <= o -> e <= len buf -> tiles buf o e cs -> lax_elements (slice buf o e).
Proof.
  induction cs as [|c cs IH]; intros o e Ho He H; cbn [tiles] in H.
  - subst e. unfold slice. rewrite Z.sub_diag. constructor.
  - destruct H as (H1 & H2 & H3 & s & H4 & H5 & H6).
    pose proof (tiles_le _ _ _ _ H6) as Hle.
    apply getBlock_lax in H2; [|exact Ho]. destruct H2 as (_ & _ & bt & bl & rest & B1 & B2 & B3 & B4 & B5 & _).
    destruct (size_numeric _ _ H4) as [l Hl]. unfold b_size in H4. rewrite Hl in *. cbn [ladd lval] in *. injection H4 as H4.
    destruct H3 as (_ & _ & [(z & Hz & Hz0)|(z & Hz & _)]); [|congruence]. assert (z = l) by congruence. subst z. clear Hz.
    pose proof (skipn_len buf o Ho) as HL. rewrite B1, !zlen_app in HL.
    assert (HR : l <= zlen rest) by lia.
    set (v := firstn (Z.to_nat l) rest). set (rest' := skipn (Z.to_nat l) rest).
    assert (HV : zlen v = l) by (unfold v, zlen in *; rewrite firstn_length; lia).
    assert (E : slice buf o e = bt ++ bl ++ v ++ slice buf (o + s) e).
    { unfold slice. replace (Z.to_nat (o + s)) with (Z.to_nat o + Z.to_nat s)%nat by lia. rewrite skipn_plus, B1.
      rewrite (app_assoc bt bl). replace (Z.to_nat s) with (length (bt ++ bl) + Z.to_nat l)%nat by (rewrite app_length; unfold zlen in *; lia).
      rewrite skipn_plus, skipn_app, skipn_all, Nat.sub_diag. cbn [skipn app].
      replace (Z.to_nat (e - o)) with (length (bt ++ bl) + (Z.to_nat l + Z.to_nat (e - (o + s))))%nat by (rewrite app_length; unfold zlen in *; lia).
      rewrite firstn_app_2. rewrite <- (firstn_skipn (Z.to_nat l) rest) at 1. fold v rest'.
      replace (Z.to_nat l) with (length v) at 1 by (unfold zlen in HV; lia). rewrite firstn_app_2. now rewrite <- !app_assoc. }
    rewrite E. eapply lax_cons; eauto.
    + replace (N.of_nat (length v)) with (Z.to_N l) by (unfold zlen in HV; lia). exact B5.
    + apply IH; try lia. exact H6.
Qed.

(** * Octets that cannot be misread *)
(** 255 and then six octets 0, or six octets 255: a nine-octet number whose value lies within
    the buffer, or within the buffer modulo 2^64 *)
Lemma eight_small l : Forall is_byte l -> length l = 8%nat -> uint l < 65536 -> exists a b, l = repeat 0%N 6 ++ [a; b].
Proof.
  intros HB HL HU. do 8 (destruct l as [|? l]; [discriminate|]). destruct l; [|discriminate].
  repeat match goal with H : Forall _ (_ :: _) |- _ => inversion_clear H end. unfold is_byte in *.
  unfold uint, of_be in HU. cbn [fold_left] in HU.
  exists n5, n6. cbn. repeat f_equal; lia.
Qed.
Lemma eight_large l : Forall is_byte l -> length l = 8%nat -> 18446744073709551616 - 65536 <= uint l -> exists a b, l = repeat 255%N 6 ++ [a; b].
Proof.
  intros HB HL HU. do 8 (destruct l as [|? l]; [discriminate|]). destruct l; [|discriminate].
  repeat match goal with H : Forall _ (_ :: _) |- _ => inversion_clear H end. unfold is_byte in *.
  unfold uint, of_be in HU. cbn [fold_left] in HU.
  exists n5, n6. cbn. repeat f_equal; lia.
Qed.

Lemma wrap_mod a b : wrap64 (a - wrap64 b) = wrap64 (a - b).
Proof. unfold wrap64. now rewrite Zminus_mod_idemp_r. Qed.
Lemma wrap_mod_add a b : wrap64 (a + wrap64 b) = wrap64 (a + b).
Proof. unfold wrap64. now rewrite Zplus_mod_idemp_r. Qed.

Lemma getBlock_beyond buf off : len buf <= lval off -> getBlock buf off = Ok None.
Proof. intros H. unfold getBlock, readVarNumber at 1. destruct (Z.leb_spec (len buf) (lval off)); [reflexivity|lia]. Qed.

Lemma no_error_loop buf b l : Forall is_byte buf -> len buf < 65536 -> ~ risky buf ->
  0 <= l -> b_length b = LNum l -> 0 <= b_off b -> 2 <= b_typeLen b + b_lengthLen b <= 18 ->
  forall fuel left subs, left <= l -> subLoop buf fuel b (LNum left) subs <> LuaError.
Proof.
  intros HB HL HR Hl0 Hl HO HH. induction fuel as [|fuel IH]; intros left subs Hle; cbn [subLoop lval].
  - destruct (0 <? left); [congruence|]. destruct (lis (LNum left) 0); congruence.
  - destruct (Z.ltb_spec 0 left) as [Hp|Hp]; [|destruct (lis (LNum left) 0); congruence].
    rewrite Hl. cbn [lsub ladd]. set (m := b_off b + b_typeLen b + b_lengthLen b + (l - left)).
    assert (Hm : 0 <= m) by (unfold m; lia).
    pose proof (getBlock_cases buf (LNum m)) as HC.
    destruct (getBlock buf (LNum m)) as [[c|]| |] eqn:EG; cbn [bind]; try congruence.
    2: { destruct HC as [[z HC]|(o & [= <-] & HC)]; [discriminate|lia]. }
    apply getBlock_lax in EG; [|exact Hm]. destruct EG as (G1 & (R1 & R2 & R3) & bt & bl & rest & B1 & B2 & B3 & _ & _ & B6).
    unfold b_size. destruct R3 as [(z & Hz & Hz0)|(v & Hv & Hv0)].
    { rewrite Hz. cbn [ladd lsub]. apply IH. lia. }
    destruct (B6 v Hv) as (oct & -> & L8 & Ev). rewrite Hv. cbn [ladd lsub lval].
    destruct fuel as [|fuel']; [cbn; destruct (0 <? _); congruence|]. cbn [subLoop lval].
    destruct (Z.ltb_spec 0 (wrap64 (left - wrap64 (b_typeLen c + b_lengthLen c + v)))) as [Hq|Hq]; [|cbn; congruence].
    rewrite Hl. cbn [lsub ladd lval].
    assert (HB8 : Forall is_byte oct).
    { assert (HF : Forall is_byte (skipn (Z.to_nat m) buf)) by (apply Forall_forall; intros x Hx; rewrite Forall_forall in HB; apply HB; rewrite <- (firstn_skipn (Z.to_nat m) buf); apply in_or_app; now right).
      rewrite B1 in HF. apply Forall_app in HF. destruct HF as [_ HF]. cbn in HF. inversion_clear HF as [|? ? _ HF2]. apply Forall_app in HF2. tauto. }
    assert (HN : forall x a d, x = 0%N \/ x = 255%N -> oct <> repeat x 6 ++ [a; d]).
    { intros x a d Hx E. apply HR. exists (firstn (Z.to_nat m) buf ++ bt), ([a; d] ++ rest), x. split; [exact Hx|].
      rewrite <- (firstn_skipn (Z.to_nat m) buf) at 1. rewrite B1, E, <- !app_assoc. reflexivity. }
    assert (Hlo : 65536 <= v). { rewrite Ev. destruct (Z_lt_le_dec (uint oct) 65536) as [K|K]; [|exact K].
      destruct (eight_small _ HB8 L8 K) as (a & d & E). exfalso. apply (HN 0%N a d); auto. }
    assert (Hhi : v < 18446744073709551616 - 65536). { rewrite Ev. destruct (Z_lt_le_dec (uint oct) (18446744073709551616 - 65536)) as [K|K]; [exact K|].
      destruct (eight_large _ HB8 L8 K) as (a & d & E). exfalso. apply (HN 255%N a d); auto. }
    match goal with |- context [getBlock buf (LU64 ?z)] => assert (EZ : z = m + (b_typeLen c + b_lengthLen c) + v) end.
    { rewrite (wrap_mod left), (wrap_mod l), wrap_mod_add. unfold wrap64.
      match goal with |- ?x mod _ = _ => replace x with ((m + (b_typeLen c + b_lengthLen c) + v)) end.
      - apply Z.mod_small. unfold m in *. lia.
      - unfold m. unfold wrap64. lia. }
    rewrite EZ, getBlock_beyond by (cbn; lia). cbn [bind]. congruence.
Qed.
