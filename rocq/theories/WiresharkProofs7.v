(** Proofs about the Wireshark dissector: whole buffers. *)
From Coq Require Import String.
From Verif Require Import Base BaseFacts TlvModel TlvProofs PingModel DumpModel WiresharkModel WiresharkSpec
  WiresharkProofs WiresharkProofs2 WiresharkProofs3 WiresharkProofs4 WiresharkProofs5 WiresharkProofs6.
Open Scope Z_scope.

(** * What is shown is there *)
Definition found (buf : list N) (b : block) : Prop :=
  0 <= b_off b /\ getBlock buf (LNum (b_off b)) = Ok (Some b).

Lemma found_real buf b : found buf b -> real buf b.
Proof. intros [_ H]. pose proof (getBlock_cases buf (LNum (b_off b))) as K. rewrite H in K. tauto. Qed.
Lemma found_sized buf b l : found buf b -> b_length b = LNum l -> sized buf b.
Proof.
  intros H E. pose proof (found_real _ _ H) as R. split; [apply H|]. split; [exact R|].
  destruct R as (_ & _ & [K|(v & K & _)]); [exact K|congruence].
Qed.

Lemma found_genuine buf b it : found buf b -> it_off it = b_off b -> it_size it = lval (b_size b) -> it_type it = b_type b ->
  (exists s, b_size b = LNum s /\ b_off b + s <= len buf) -> genuine buf it.
Proof.
  intros [H0 HG] E1 E2 E3 (s & ES & HL). apply getBlock_lax in HG; [|exact H0].
  destruct HG as (_ & R & bt & bl & rest & B1 & B2 & B3 & B4 & B5 & _).
  destruct (size_numeric _ _ ES) as [l El]. unfold b_size in *. rewrite El in *. cbn [ladd lval] in *. injection ES as ES.
  destruct R as (_ & _ & [(z & Hz & Hz0)|(v & K & _)]); [|congruence]. assert (z = l) by congruence. subst z.
  pose proof (skipn_len buf (b_off b) H0) as HK. rewrite B1, !zlen_app in HK.
  assert (HR : l <= zlen rest) by lia.
  exists (firstn (Z.to_nat (b_off b)) buf), bt, bl, (firstn (Z.to_nat l) rest), (skipn (Z.to_nat l) rest).
  assert (HV : length (firstn (Z.to_nat l) rest) = Z.to_nat l) by (rewrite firstn_length; unfold zlen in *; lia).
  repeat split.
  - rewrite <- (firstn_skipn (Z.to_nat (b_off b)) buf) at 1. rewrite B1. rewrite <- (firstn_skipn (Z.to_nat l) rest) at 1. reflexivity.
  - rewrite E1. unfold zlen. rewrite firstn_length. unfold len in *. pose proof (zlen_pos bt). pose proof (zlen_pos bl). lia.
  - rewrite E2, !zlen_app. unfold zlen at 3. rewrite HV. lia.
  - rewrite E3. exact B4.
  - rewrite HV. replace (N.of_nat (Z.to_nat l)) with (Z.to_N l) by lia. exact B5.
Qed.

Definition covers (p : item) (b : block) : Prop :=
  it_off p < b_off b /\ b_off b + lval (b_size b) <= it_off p + it_size p.

Lemma tiles_found buf cs : forall o e, 0 <= o -> tiles buf o e cs ->
  Forall (fun c => found buf c /\ o <= b_off c /\ b_off c + lval (b_size c) <= e) cs.
Proof.
  induction cs as [|c cs IH]; intros o e Ho H; cbn [tiles] in H; [constructor|].
  destruct H as (H1 & H2 & H3 & s & H4 & H5 & H6). pose proof (tiles_le _ _ _ _ H6). constructor.
  - subst o. rewrite H4. cbn [lval]. split; [split; [exact Ho|exact H2]|lia].
  - apply IH in H6; [|lia]. eapply Forall_impl; [|exact H6]. cbn. intros a (A & B & C). repeat split; try apply A; lia.
Qed.

Lemma addTree_sound buf : forall fuel queue items,
  Forall (fun q => found buf (fst q) /\ forall k, snd q = Some k -> exists p, nth_error items k = Some p /\ covers p (fst q)) queue ->
  Forall (genuine buf) items -> Forall (nested items) items ->
  let out := snd (addTree buf fuel queue items) in Forall (genuine buf) out /\ Forall (nested out) out.
Proof.
  induction fuel as [|fuel IH]; intros [|[b par] queue] items HQ HG HN; cbn [addTree snd]; auto.
  inversion_clear HQ as [|? ? [HF HP] HQ']. cbn [fst snd] in *.
  destruct (getSubBlocks buf b) as [els| |] eqn:ES; cbn [snd]; auto.
  destruct (addInfo buf b els par) as [it| |] eqn:EI; cbn [snd]; auto.
  apply addInfo_item in EI. destruct EI as (I1 & I2 & I3 & I4 & s & Is & I5 & I6 & I7).
  assert (GROW : forall k p, nth_error items k = Some p -> nth_error (items ++ [it]) k = Some p).
  { intros k p E. rewrite nth_error_app1; [exact E|]. apply nth_error_Some. congruence. }
  apply IH.
  - apply Forall_app. split.
    + eapply Forall_impl; [|exact HQ']. intros q [A B]. split; [exact A|]. intros k E. apply B in E. destruct E as (p & E & C). eauto.
    + destruct els as [cs|]; [|constructor]. apply Forall_map. cbn [fst snd].
      destruct (size_numeric _ _ Is) as [l El]. pose proof (found_sized _ _ _ HF El) as HZ.
      pose proof (sub_sized buf b HZ) as H. rewrite ES in H. destruct H as (_ & _ & l' & El' & HT).
      destruct (sized_size _ _ HZ) as (l2 & El2 & L0 & Sz & _ & Hh).
      assert (l' = l) by congruence. assert (l2 = l) by congruence. subst l' l2.
      apply tiles_found in HT; [|lia]. eapply Forall_impl; [|exact HT]. intros c (C1 & C2 & C3). split; [exact C1|].
      intros k [= <-]. exists it. split; [rewrite nth_error_app2, Nat.sub_diag by lia; reflexivity|].
      unfold covers. rewrite I1, I2, Sz. cbn [lval]. lia.
  - apply Forall_app. split; [exact HG|]. constructor; [|constructor]. eapply found_genuine; eauto.
  - apply Forall_app. split.
    + eapply Forall_impl; [|exact HN]. intros y Hy k E. apply Hy in E. destruct E as (p & E & C). eauto.
    + constructor; [|constructor]. intros k E. rewrite I4 in E. apply HP in E. destruct E as (p & E & C).
      exists p. split; [auto|]. unfold covers in C. rewrite I1, I2. exact C.
Qed.

(** * The loop over packets *)
Lemma find_found buf : forall n o b, 0 <= o -> findNdnPacket buf n o = Some b -> found buf b /\ canBeValidNdnPacket b = true /\ o <= b_off b /\ b_off b + 2 < len buf.
Proof.
  induction n as [|n IH]; intros o b Ho H; cbn [findNdnPacket] in H; [discriminate|].
  destruct (Z.ltb_spec (o + 2) (len buf)) as [HL|HL]; [|discriminate].
  destruct (getBlock buf (LNum o)) as [[c|]| |] eqn:E; try discriminate.
  - destruct (canBeValidNdnPacket c) eqn:EC.
    + injection H as <-. pose proof (getBlock_cases buf (LNum o)) as K. rewrite E in K. destruct K as [[= K] R]. subst o.
      repeat split; auto; lia.
    + apply IH in H; [|lia]. destruct H as (A & B & C & D). repeat split; try apply A; auto; lia.
  - apply IH in H; [|lia]. destruct H as (A & B & C & D). repeat split; try apply A; auto; lia.
Qed.

Lemma real_size buf b : real buf b -> 2 <= lval (b_size b) \/ exists v, b_length b = LU64 v.
Proof.
  intros (R1 & R2 & [(z & Hz & H0)|(v & Hv & _)]); [left|right; eauto]. unfold b_size. rewrite Hz. cbn. lia.
Qed.

(** one packet that is complete *)
Definition after (buf : list N) (items : list item) (i : pkt_type * text) (left : Z) (b : block) : result :=
  if 0 <? left then
    match getBlock buf (LNum (len buf - left)) with
    | Ok (Some b') => if canBeValidNdnPacket b' then Result [items] None None Failed
                      else finish buf [items] i left (Some b')
    | _ => finish buf [items] i left None
    end
  else finish buf [items] i left (Some b).

Lemma packets_eq buf fuel b left i s : (2 <= fuel)%nat -> b_size b = LNum s -> 2 <= s -> 0 <= b_off b -> left = len buf - b_off b -> s <= left ->
  packets buf fuel b left [] i =
  match addTree buf (S (length buf)) [(b, None)] [] with
  | (Ok _, items) =>
      match summarize buf (S (length buf + length buf)) [(b, false)] i with
      | Ok i' => after buf items i' (left - s) b
      | e => Result [items] None None (abort e)
      end
  | (e, items) => Result [items] None None (abort e)
  end.
Proof.
  intros HF ES H2 HO HL HS. destruct fuel as [|[|fuel]]; [lia..|]. cbn [packets]. rewrite ES. cbn [lval].
  destruct (Z.leb_spec s left); [|lia].
  assert (ER : exists r, range buf (LNum (b_off b)) (LNum s) = Ok r).
  { unfold range. destruct ((0 <=? b_off b) && (0 <=? s) && (b_off b + s <=? len buf)) eqn:E; [eauto|lia]. }
  destruct ER as [rr ->].
  destruct (addTree buf (S (length buf)) [(b, None)] []) as [[u| |] items]; cbn [app]; try reflexivity.
  destruct (summarize buf (S (length buf + length buf)) [(b, false)] i) as [i'| |]; cbn [app]; try reflexivity.
  unfold after. destruct (Z.ltb_spec 0 (left - s)) as [Hp|Hp].
  - destruct (getBlock buf (LNum (len buf - (left - s)))) as [[b'|]| |]; try reflexivity.
    destruct (canBeValidNdnPacket b'); reflexivity.
  - destruct (Z.leb_spec s (left - s)); [lia|reflexivity].
Qed.

Lemma packets_u64 buf fuel b left i v : (1 <= fuel)%nat -> b_length b = LU64 v -> lval (b_size b) <= left ->
  packets buf fuel b left [] i = Result [] None None Failed.
Proof.
  intros HF Hv HL. destruct fuel as [|fuel]; [lia|]. cbn [packets]. destruct (Z.leb_spec (lval (b_size b)) left); [|lia].
  unfold b_size. rewrite Hv. cbn [ladd range]. reflexivity.
Qed.
Lemma packets_large buf fuel b left i : left < lval (b_size b) -> packets buf fuel b left [] i = finish buf [] i left (Some b).
Proof. intros H. destruct fuel; cbn [packets]; destruct (Z.leb_spec (lval (b_size b)) left); try lia; reflexivity. Qed.

Lemma after_end buf items i left b : r_end (after buf items i left b) <> Endless /\
  r_trees (after buf items i left b) = [items].
Proof.
  unfold after. destruct (0 <? left); [|split; [discriminate|reflexivity]].
  destruct (getBlock buf _) as [[b'|]| |]; try (split; [discriminate|reflexivity]).
  destruct (canBeValidNdnPacket b'); split; try discriminate; reflexivity.
Qed.

(** every buffer: the dissector ends; the items are genuine and nested *)
Lemma dissect_any buf reported r : dissector buf reported = Some r ->
  r_end r <> Endless /\ (length (r_trees r) <= 1)%nat /\
  Forall (fun items => Forall (genuine buf) items /\ Forall (nested items) items) (r_trees r).
Proof.
  unfold dissector. destruct (negb (len buf =? reported)); [discriminate|].
  destruct (findNdnPacket buf (length buf) 0) as [b|] eqn:EF; [|discriminate].
  remember (S (S (length buf))) as F eqn:EFu. intros H. assert (r = packets buf F b (len buf - b_off b) [] (PtNone, [])) by congruence. subst r. clear H.
  apply find_found in EF; [|lia]. destruct EF as (HF & _ & H0 & H2).
  set (left := len buf - b_off b).
  destruct (Z_lt_le_dec left (lval (b_size b))) as [HL|HL].
  { rewrite packets_large by exact HL. cbn. repeat split; [discriminate|lia|constructor]. }
  destruct (b_length b) as [l|v] eqn:El.
  2: { rewrite (packets_u64 _ _ _ _ _ v) by (lia || assumption). cbn. repeat split; [discriminate|lia|constructor]. }
  pose proof (found_sized _ _ _ HF El) as HZ. destruct (sized_size _ _ HZ) as (l' & El' & L0 & Sz & Sz' & Hh).
  assert (l' = l) by congruence. subst l'.
  rewrite (packets_eq buf _ b left _ (b_typeLen b + b_lengthLen b + l)); [|lia|exact Sz|lia|lia|reflexivity|unfold size_of in Sz'; lia].
  pose proof (addTree_ends buf (S (length buf)) [(b, None)] []) as HE.
  pose proof (addTree_sound buf (S (length buf)) [(b, None)] []) as HSo.
  assert (HSo' : let out := snd (addTree buf (S (length buf)) [(b, None)] []) in Forall (genuine buf) out /\ Forall (nested out) out).
  { apply HSo; [|constructor|constructor]. constructor; [|constructor]. split; [exact HF|]. intros k E. discriminate. }
  cbn [map fst total] in HE. unfold size_of in *.
  assert (HE' : fst (addTree buf (S (length buf)) [(b, None)] []) <> NoFuel).
  { apply HE; [constructor; [exact HZ|constructor]|]. unfold left, len in *. lia. }
  destruct (addTree buf (S (length buf)) [(b, None)] []) as [[u| |] items]; cbn [fst snd] in *.
  - pose proof (summarize_ends buf (S (length buf + length buf)) [(b, false)] (PtNone, [])) as HU.
    assert (HU' : summarize buf (S (length buf + length buf)) [(b, false)] (PtNone, []) <> NoFuel).
    { apply HU; [constructor; [exact HZ|constructor]|]. cbn [weights weight]. unfold weight. cbn [fst snd]. unfold size_of, left, len in *. lia. }
    destruct (summarize buf (S (length buf + length buf)) [(b, false)] (PtNone, [])) as [i'| |]; [| |congruence].
    + destruct (after_end buf items i' (left - (b_typeLen b + b_lengthLen b + l)) b) as [A1 A2].
      rewrite A2. repeat split; [exact A1|cbn; lia|]. constructor; [exact HSo'|constructor].
    + cbn. repeat split; [discriminate|lia|]. constructor; [exact HSo'|constructor].
  - cbn. repeat split; [discriminate|lia|]. constructor; [exact HSo'|constructor].
  - congruence.
Qed.

(** * A buffer that starts with a packet *)
Lemma packet_at0 p post : at_ (wire p ++ post) 0 p.
Proof. exists [], post. auto. Qed.
Lemma packet_type p : is_packet p -> type_ok32 p.
Proof. intros (_ & H & _). unfold type_ok32. lia. Qed.

Lemma packet_valid o p : is_packet p -> canBeValidNdnPacket (block_of o p) = true.
Proof.
  intros (_ & HT & HL). unfold canBeValidNdnPacket. cbn [block_of b_type b_length lval].
  change 5 with (Z.of_N 5). change 6 with (Z.of_N 6). change 100 with (Z.of_N 100). rewrite !lis_N.
  assert ((e_type p =? 5)%N || (e_type p =? 6)%N || (e_type p =? 100)%N = true) as -> by (destruct HT as [-> | [-> | ->]]; reflexivity).
  unfold zlen. cbn [andb]. apply Z.leb_le. lia.
Qed.
Lemma packet_3 p : is_packet p -> 3 <= zlen (wire p).
Proof. intros (_ & _ & HL). rewrite wire_len. pose proof (header_pos p). unfold zlen in *. lia. Qed.

Lemma find_first p post : is_packet p -> short (wire p ++ post) ->
  findNdnPacket (wire p ++ post) (length (wire p ++ post)) 0 = Some (block_of 0 p).
Proof.
  intros HP HS. pose proof (packet_3 p HP) as H3. pose proof (zlen_pos post).
  assert (HL : zlen (wire p ++ post) = zlen (wire p) + zlen post) by apply zlen_app.
  destruct (length (wire p ++ post)) as [|n] eqn:E; [unfold zlen in *; lia|]. cbn [findNdnPacket].
  assert (EL : len (wire p ++ post) = zlen (wire p ++ post)) by reflexivity. rewrite EL, HL.
  destruct (Z.ltb_spec (0 + 2) (zlen (wire p) + zlen post)); [|lia].
  rewrite (getBlock_at _ _ _ (packet_type p HP) HS (packet_at0 p post)). now rewrite packet_valid.
Qed.

Lemma dissect_packet p post : is_packet p -> short (wire p ++ post) ->
  let buf := wire p ++ post in
  dissector buf (len buf) = Some (
    match addTree buf (S (length buf)) [(block_of 0 p, None)] [] with
    | (Ok _, items) =>
        match summarize buf (S (length buf + length buf)) [(block_of 0 p, false)] (PtNone, []) with
        | Ok i' => after buf items i' (zlen post) (block_of 0 p)
        | e => Result [items] None None (abort e)
        end
    | (e, items) => Result [items] None None (abort e)
    end).
Proof.
  intros HP HS buf. unfold dissector. rewrite Z.eqb_refl. cbn [negb]. unfold buf at 1 2. rewrite find_first by assumption. fold buf.
  f_equal. change (b_off (block_of 0 p)) with 0. rewrite Z.sub_0_r.
  assert (HL : len buf = zlen (wire p) + zlen post) by (unfold buf, len; fold (zlen (wire p ++ post)); apply zlen_app).
  pose proof (zlen_pos post). pose proof (packet_3 p HP).
  rewrite (packets_eq buf _ (block_of 0 p) (len buf) _ (zlen (wire p))); [|lia|apply block_size|lia|cbn; lia|cbn; lia|lia].
  replace (len buf - zlen (wire p)) with (zlen post) by lia. reflexivity.
Qed.
