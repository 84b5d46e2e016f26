(** Proofs for C54: reports about damaged packets. *)
From Verif Require Import Base TlvModel TlvProofs PingModel DumpModel DumpSpec DumpSpec2 DumpProofs.
From Coq Require Import String List.
Import ListNotations.
Local Open Scope nat_scope.
Local Open Scope list_scope.

(** * Reading *)
Lemma rd_at pre b i x : byte_at b i x -> rd (pre ++ b) (length pre + i) = Fine x.
Proof. apply rd_app. Qed.
Lemma rd_at0 pre b x : byte_at b 0 x -> rd (pre ++ b) (length pre) = Fine x.
Proof. intros H. rewrite <- (rd_at pre b 0 x H). f_equal. lia. Qed.
Lemma rd16_at pre b i n : word_at b i n -> exists m, rd16 (pre ++ b) (length pre + i) = Fine m /\ N.to_nat m = n.
Proof.
  intros (hi & lo & H1 & H2 & ->). exists (hi * 256 + lo)%N. split; [now apply rd16_app|]. f_equal. lia.
Qed.
Lemma range_at pre b i n : i + n <= length b -> rd_range (pre ++ b) (length pre + i) n = Fine (slice b i n).
Proof.
  intros H. unfold rd_range, slice. rewrite app_length. destruct (Nat.leb_spec (length pre + i + n) (length pre + length b)); [|lia].
  f_equal. rewrite skipn_app. rewrite (skipn_all2 pre) by lia. cbn [app]. now replace (length pre + i - length pre) with i by lia.
Qed.
Lemma byte_total b i : i < length b -> exists x, byte_at b i x.
Proof. intros H. unfold byte_at. destruct (nth_error b i) eqn:E; [eauto|]. apply nth_error_None in E. lia. Qed.
Lemma word_total b i : i + 1 < length b -> exists n, word_at b i n.
Proof.
  intros H. destruct (byte_total b i) as [x Hx]; [lia|]. destruct (byte_total b (i + 1)) as [y Hy]; [lia|].
  exists (N.to_nat (256 * x + y)). exists x, y. auto.
Qed.
Lemma byte_len b i x : byte_at b i x -> i < length b.
Proof. unfold byte_at. intros H. apply nth_error_Some. congruence. Qed.
Lemma word_len b i n : word_at b i n -> i + 1 < length b.
Proof. intros (x & y & _ & H & _). now apply byte_len in H. Qed.
Lemma split_at (b : list N) k : k <= length b -> b = firstn k b ++ skipn k b /\ length (firstn k b) = k.
Proof. intros H. split; [symmetry; apply firstn_skipn|now apply firstn_length_le]. Qed.

(** * Elements *)
Lemma not_element_block b : Forall is_byte b -> not_element b -> first_block b = None.
Proof.
  intros HB H. unfold first_block. destruct (read_tlv b) as [[[t v] rest]|] eqn:E; [|reflexivity].
  apply read_tlv_inv in E; [|exact HB]. destruct E as [E1 E2]. exfalso. exact (H t v rest E2 E1).
Qed.
Lemma element_cases b : Forall is_byte b -> not_element b \/ exists t v rest, elem_ok t v /\ b = tlv t v ++ rest.
Proof.
  intros HB. destruct (read_tlv b) as [[[t v] rest]|] eqn:E.
  - right. apply read_tlv_inv in E; [|exact HB]. destruct E. eauto.
  - left. intros t v rest H ->. rewrite read_tlv_tlv in E by exact H. discriminate.
Qed.

Section Damage.
Variable E : env.
Variable O : dump_opts.
Variable cap : list N.

Definition prints (x : outcome (fmt * bool)) (fs : list text) : Prop := x = Fine (Fmt (join fs) false false, true).
(** printing goes on with [w], the fields so far being [fs] *)
Definition reaches (x : outcome (fmt * bool)) (fs : list text) (w : list N) : Prop :=
  exists pre post out, cap = pre ++ w ++ post /\ shows out fs /\ x = printNdn E O cap out (length pre) (length w).

Lemma prints_field out fs f (v : text) : ready out fs -> v = f -> prints (Fine (put out v, true)) (fs ++ [f]).
Proof. intros H ->. unfold prints. now rewrite (ready_put _ _ _ H). Qed.
Lemma shows_add out fs : shows out fs -> shows (addDelimiter out) fs.
Proof.
  destruct fs; cbn; [intros ->; reflexivity|]. intros [H1 H2]. unfold addDelimiter. rewrite H2. cbn. auto.
Qed.
Lemma add_shows out fs : shows out fs -> addDelimiter (addDelimiter out) = addDelimiter out.
Proof. intros _. apply add_add. Qed.

Ltac flds R := rewrite (ready_put _ _ _ R), ?put_put; rewrite <- ?app_assoc; reflexivity.

Lemma to4 k : k * 4 = 4 * k. Proof. lia. Qed.

Lemma tcp_error pre b out fs ds : cap = pre ++ b -> shows out fs -> transport_error 6 b ds ->
  prints (printTcp E O cap out (length pre) (length b)) (fs ++ ds).
Proof.
  intros Hc Hs H. pose proof (ready_add _ _ Hs) as R. unfold printTcp, prints. rewrite Hc.
  inversion H; subst; try congruence.
  - destruct (Nat.ltb_spec (length b) 20); [|lia]. flds R.
  - destruct (Nat.ltb_spec (length b) 20); [lia|]. rewrite (rd_at _ _ _ _ H1). cbn [bind].
    fold (upper x). destruct (Nat.ltb_spec (upper x * 4) 20); [|lia]. rewrite to4. flds R.
  - destruct (Nat.ltb_spec (length b) 20); [lia|]. rewrite (rd_at _ _ _ _ H1). cbn [bind].
    fold (upper x). destruct (Nat.ltb_spec (upper x * 4) 20); [lia|].
    rewrite to4. destruct (Nat.ltb_spec (length b) (4 * upper x)); [|lia].
    unfold minus. destruct (Nat.leb_spec (length b) (4 * upper x)); [|lia]. cbn [bind]. flds R.
Qed.
Lemma udp_error pre b out fs ds : cap = pre ++ b -> shows out fs -> transport_error 17 b ds ->
  prints (printUdp E O cap out (length pre) (length b)) (fs ++ ds).
Proof.
  intros Hc Hs H. pose proof (ready_add _ _ Hs) as R. unfold printUdp, prints. rewrite Hc.
  inversion H; subst; try congruence.
  - destruct (Nat.ltb_spec (length b) 8); [|lia]. flds R.
  - destruct (Nat.ltb_spec (length b) 8); [lia|]. destruct (rd16_at pre b 4 l) as (m & -> & <-); [assumption|]. cbn [bind].
    destruct (Nat.ltb_spec (N.to_nat m) 8); [|lia]. flds R.
  - destruct (Nat.ltb_spec (length b) 8); [lia|]. destruct (rd16_at pre b 4 l) as (m & -> & <-); [assumption|]. cbn [bind].
    destruct (Nat.ltb_spec (N.to_nat m) 8); [lia|]. destruct (Nat.ltb_spec (length b) (N.to_nat m)); [|lia].
    unfold minus. destruct (Nat.leb_spec (length b) (N.to_nat m)); [|lia]. cbn [bind]. flds R.
Qed.
Lemma proto_error p pre b out fs ds : cap = pre ++ b -> shows out fs -> transport_error p b ds ->
  prints (dispatchByIpProto E O cap out (length pre) (length b) p) (fs ++ ds).
Proof.
  intros Hc Hs H. unfold dispatchByIpProto. pose proof (ready_add _ _ Hs) as R. pose proof (shows_add _ _ Hs) as Hs2.
  destruct (N.eqb_spec p 59) as [->|H59]; [|destruct (N.eqb_spec p 6) as [->|H6]; [|destruct (N.eqb_spec p 17) as [->|H17]]].
  - inversion H; subst; try congruence. unfold prints. flds R.
  - now apply tcp_error.
  - now apply udp_error.
  - inversion H; subst; try congruence. unfold prints. flds R.
Qed.

Lemma len_shows out fs u w : shows out fs ->
  shows (put (put (addDelimiter (put (addDelimiter out) u)) (str "length ")) (dec (length w))) (fs ++ [u; len_field w]).
Proof.
  intros Hs. apply ready_add in Hs. rewrite (ready_put _ _ _ Hs). pose proof (shows_fmt fs u) as Hs1.
  apply ready_add in Hs1. rewrite (ready_put _ _ _ Hs1), put_put. change (fs ++ [u; len_field w]) with (fs ++ [u] ++ [len_field w]). rewrite app_assoc. apply shows_fmt.
Qed.

Lemma proto_intact p pre b out fs ds w : cap = pre ++ b -> shows out fs -> transport_intact p b ds w ->
  reaches (dispatchByIpProto E O cap out (length pre) (length b) p) (fs ++ ds) w.
Proof.
  intros Hc Hs H. pose proof (shows_add _ _ Hs) as Hs2. unfold dispatchByIpProto. destruct H as [b x Hx H5 H4|b l Hl H8 Hle].
  - change (6 =? 59)%N with false. change (6 =? 6)%N with true. cbv iota. unfold printTcp. set (o := addDelimiter out) in *.
    destruct (Nat.ltb_spec (length b) 20); [lia|]. rewrite Hc, (rd_at _ _ _ _ Hx). cbn [bind]. fold (upper x). rewrite to4.
    destruct (Nat.ltb_spec (4 * upper x) 20); [lia|]. destruct (Nat.ltb_spec (length b) (4 * upper x)); [lia|].
    unfold minus. destruct (Nat.leb_spec (4 * upper x) (length b)); [|lia]. cbn [bind].
    destruct (split_at b (4 * upper x)) as [Hb Hl]; [lia|].
    exists (pre ++ firstn (4 * upper x) b), [].
    exists (put (put (addDelimiter (put (addDelimiter o) (str "TCP"))) (str "length ")) (dec (length (skipn (4 * upper x) b)))).
    split; [rewrite Hc, app_nil_r, <- app_assoc, <- Hb; reflexivity|]. split; [now apply len_shows|].
    rewrite app_length, Hl, skipn_length. rewrite <- Hc. reflexivity.
  - change (17 =? 59)%N with false. change (17 =? 6)%N with false. change (17 =? 17)%N with true. cbv iota. unfold printUdp. set (o := addDelimiter out) in *.
    destruct (Nat.ltb_spec (length b) 8); [lia|]. rewrite Hc. destruct (rd16_at pre b 4 l Hl) as (m & -> & Hm). cbn [bind]. rewrite Hm.
    destruct (Nat.ltb_spec l 8); [lia|]. destruct (Nat.ltb_spec (length b) l); [lia|].
    unfold minus. destruct (Nat.leb_spec 8 l); [|lia]. cbn [bind].
    destruct (split_at b 8) as [Hb Hlb]; [lia|].
    destruct (split_at (skipn 8 b) (l - 8)) as [Hb2 Hlb2]; [rewrite skipn_length; lia|]. fold (slice b 8 (l - 8)) in Hb2, Hlb2.
    exists (pre ++ firstn 8 b), (skipn (l - 8) (skipn 8 b)).
    exists (put (put (addDelimiter (put (addDelimiter o) (str "UDP"))) (str "length ")) (dec (length (slice b 8 (l - 8))))).
    split; [rewrite Hc, <- Hb2, <- app_assoc, <- Hb; reflexivity|]. split; [now apply len_shows|].
    rewrite app_length, Hlb, Hlb2. rewrite <- Hc. reflexivity.
Qed.

(** * IP *)
Lemma ip4_step pre b p d rest out fs : cap = pre ++ b -> shows out fs -> ip4_intact b p d rest ->
  exists pre' out', cap = pre' ++ rest /\ shows out' (fs ++ [d]) /\
    printIp4 E O cap out (length pre) (length b) = dispatchByIpProto E O cap out' (length pre') (length rest) p.
Proof.
  intros Hc Hs Hi. revert Hc. destruct Hi as [b0 v l q Hv H4 H5 Hl Hlo Hhi Hp]. intros Hc. pose proof (ready_add _ _ Hs) as R. unfold printIp4.
  destruct (Nat.ltb_spec (length b0) 20); [lia|]. destruct (split_at b0 (4 * lower v)) as [Hb Hlb]; [lia|].
  exists (pre ++ firstn (4 * lower v) b0).
  eexists. split; [rewrite Hc, <- app_assoc, <- Hb; reflexivity|]. split; cycle 1.
  - rewrite Hc at 1. rewrite (rd_at0 _ _ _ Hv). cbn [bind]. destruct (N.eqb_spec (v / 16) 4) as [_|X]; [|exfalso; apply X; unfold upper in H4; lia]. cbn [negb].
    fold (lower v). rewrite to4. destruct (Nat.ltb_spec (4 * lower v) 20); [lia|].
    rewrite Hc at 1. destruct (rd16_at pre b0 2 l Hl) as (m & -> & Hm). cbn [bind]. rewrite Hm.
    destruct (Nat.ltb_spec l (4 * lower v)); [lia|]. destruct (Nat.ltb_spec (length b0) l); [lia|].
    rewrite Hc at 1. rewrite range_at by lia. cbn [bind]. rewrite Hc at 1. rewrite range_at by lia. cbn [bind].
    unfold minus. destruct (Nat.leb_spec (4 * lower v) (length b0)); [|lia]. cbn [bind].
    rewrite Hc at 1. rewrite (rd_at _ _ _ _ Hp). cbn [bind].
    rewrite app_length, Hlb, skipn_length. reflexivity.
  - rewrite (ready_put _ _ _ R), !put_put, <- !app_assoc. apply shows_fmt.
Qed.
Lemma ip6_step pre b p d rest out fs : cap = pre ++ b -> shows out fs -> ip6_intact E b p d rest ->
  exists pre' out', cap = pre' ++ rest /\ shows out' (fs ++ [d]) /\
    printIp6 E O cap out (length pre) (length b) = dispatchByIpProto E O cap out' (length pre') (length rest) p.
Proof.
  intros Hc Hs Hi. revert Hc. destruct Hi as [b0 v l q Hv H4 Hl Hhi Hp]. intros Hc. pose proof (ready_add _ _ Hs) as R. unfold printIp6.
  destruct (Nat.ltb_spec (length b0) 40); [lia|]. destruct (split_at b0 40) as [Hb Hlb]; [lia|].
  exists (pre ++ firstn 40 b0).
  eexists. split; [rewrite Hc, <- app_assoc, <- Hb; reflexivity|]. split; cycle 1.
  - rewrite Hc at 1. rewrite (rd_at0 _ _ _ Hv). cbn [bind]. destruct (N.eqb_spec (v / 16) 6) as [_|X]; [|exfalso; apply X; unfold upper in H4; lia]. cbn [negb].
    unfold minus. destruct (Nat.leb_spec 40 (length b0)); [|lia]. cbn [bind].
    rewrite Hc at 1. destruct (rd16_at pre b0 4 l Hl) as (m & -> & Hm). cbn [bind]. rewrite Hm.
    destruct (Nat.ltb_spec (length b0 - 40) l); [lia|].
    rewrite Hc at 1. rewrite range_at by lia. cbn [bind]. rewrite Hc at 1. rewrite range_at by lia. cbn [bind].
    rewrite Hc at 1. rewrite (rd_at _ _ _ _ Hp). cbn [bind].
    rewrite app_length, Hlb, skipn_length. reflexivity.
  - rewrite (ready_put _ _ _ R), !put_put, <- !app_assoc. apply shows_fmt.
Qed.

Lemma dec_upper v : to_string (v / 16) = dec (upper v).
Proof. unfold dec, upper. now rewrite N2Nat.id. Qed.

Lemma type_error t pre b out fs ds : cap = pre ++ b -> shows out fs -> network_error E t b ds ->
  prints (dispatchByEtherType E O cap out (length pre) (length b) t) (fs ++ ds).
Proof.
  intros Hc Hs H. unfold dispatchByEtherType. pose proof (ready_add _ _ Hs) as R. pose proof (shows_add _ _ Hs) as Hs2.
  pose proof (ready_add _ _ Hs2) as R2.
  destruct H as [t b H1 H2 H3 H4|b Hl|b v Hl Hv Hu|b v Hl Hv Hu Hw|b v l Hl Hv Hu Hw Hln Hlt|b v l Hl Hv Hu Hw Hln Hge Hlt|b p d rest ds Hi Ht
                |b Hl|b v Hl Hv Hu|b v l Hl Hv Hu Hln Hlt|b p d rest ds Hi Ht].
  - unfold ETH_IP4, ETH_IP6, ETH_NDN, ETH_NDNSIM in *.
    rewrite (proj2 (N.eqb_neq t 2048)), (proj2 (N.eqb_neq t 34525)), (proj2 (N.eqb_neq t 34340)), (proj2 (N.eqb_neq t 30583)) by assumption.
    cbn [orb]. unfold prints. flds R.
  - cbn [ETH_IP4]. change (ETH_IP4 =? 2048)%N with true. cbv iota. unfold printIp4, prints.
    destruct (Nat.ltb_spec (length b) 20); [|lia]. flds R2.
  - change (ETH_IP4 =? 2048)%N with true. cbv iota. unfold printIp4, prints.
    destruct (Nat.ltb_spec (length b) 20); [lia|]. rewrite Hc, (rd_at0 _ _ _ Hv). cbn [bind].
    destruct (N.eqb_spec (v / 16) 4) as [X|_]; [exfalso; apply Hu; unfold upper; now rewrite X|]. cbn [negb]. rewrite dec_upper. flds R2.
  - change (ETH_IP4 =? 2048)%N with true. cbv iota. unfold printIp4, prints.
    destruct (Nat.ltb_spec (length b) 20); [lia|]. rewrite Hc, (rd_at0 _ _ _ Hv). cbn [bind].
    destruct (N.eqb_spec (v / 16) 4) as [_|X]; [|exfalso; apply X; unfold upper in Hu; lia]. cbn [negb].
    fold (lower v). rewrite to4. destruct (Nat.ltb_spec (4 * lower v) 20); [|lia]. flds R2.
  - change (ETH_IP4 =? 2048)%N with true. cbv iota. unfold printIp4, prints.
    destruct (Nat.ltb_spec (length b) 20); [lia|]. rewrite Hc, (rd_at0 _ _ _ Hv). cbn [bind].
    destruct (N.eqb_spec (v / 16) 4) as [_|X]; [|exfalso; apply X; unfold upper in Hu; lia]. cbn [negb].
    fold (lower v). rewrite to4. destruct (Nat.ltb_spec (4 * lower v) 20); [lia|].
    destruct (rd16_at pre b 2 l Hln) as (m & -> & <-). cbn [bind].
    destruct (Nat.ltb_spec (N.to_nat m) (4 * lower v)); [|lia]. flds R2.
  - change (ETH_IP4 =? 2048)%N with true. cbv iota. unfold printIp4, prints.
    destruct (Nat.ltb_spec (length b) 20); [lia|]. rewrite Hc, (rd_at0 _ _ _ Hv). cbn [bind].
    destruct (N.eqb_spec (v / 16) 4) as [_|X]; [|exfalso; apply X; unfold upper in Hu; lia]. cbn [negb].
    fold (lower v). rewrite to4. destruct (Nat.ltb_spec (4 * lower v) 20); [lia|].
    destruct (rd16_at pre b 2 l Hln) as (m & -> & <-). cbn [bind].
    destruct (Nat.ltb_spec (N.to_nat m) (4 * lower v)); [lia|]. destruct (Nat.ltb_spec (length b) (N.to_nat m)); [|lia].
    unfold minus. destruct (Nat.leb_spec (length b) (N.to_nat m)); [|lia]. cbn [bind]. flds R2.
  - change (ETH_IP4 =? 2048)%N with true. cbv iota.
    destruct (ip4_step pre b p d rest _ fs Hc Hs2 Hi) as (pre' & out' & Hc' & Hs' & ->).
    change (d :: ds) with ([d] ++ ds). rewrite app_assoc. now apply proto_error.
  - change (ETH_IP6 =? 2048)%N with false. change (ETH_IP6 =? 34525)%N with true. cbv iota. unfold printIp6, prints.
    destruct (Nat.ltb_spec (length b) 40); [|lia]. flds R2.
  - change (ETH_IP6 =? 2048)%N with false. change (ETH_IP6 =? 34525)%N with true. cbv iota. unfold printIp6, prints.
    destruct (Nat.ltb_spec (length b) 40); [lia|]. rewrite Hc, (rd_at0 _ _ _ Hv). cbn [bind].
    destruct (N.eqb_spec (v / 16) 6) as [X|_]; [exfalso; apply Hu; unfold upper; now rewrite X|]. cbn [negb]. rewrite dec_upper. flds R2.
  - change (ETH_IP6 =? 2048)%N with false. change (ETH_IP6 =? 34525)%N with true. cbv iota. unfold printIp6, prints.
    destruct (Nat.ltb_spec (length b) 40); [lia|]. rewrite Hc, (rd_at0 _ _ _ Hv). cbn [bind].
    destruct (N.eqb_spec (v / 16) 6) as [_|X]; [|exfalso; apply X; unfold upper in Hu; lia]. cbn [negb].
    unfold minus at 1. destruct (Nat.leb_spec 40 (length b)); [|lia]. cbn [bind].
    destruct (rd16_at pre b 4 l Hln) as (m & -> & <-). cbn [bind].
    destruct (Nat.ltb_spec (length b - 40) (N.to_nat m)); [|lia].
    unfold minus. destruct (Nat.leb_spec (length b - 40) (N.to_nat m)); [|lia]. cbn [bind].
    replace (N.to_nat m - (length b - 40)) with (40 + N.to_nat m - length b) by lia. flds R2.
  - change (ETH_IP6 =? 2048)%N with false. change (ETH_IP6 =? 34525)%N with true. cbv iota.
    destruct (ip6_step pre b p d rest _ fs Hc Hs2 Hi) as (pre' & out' & Hc' & Hs' & ->).
    change (d :: ds) with ([d] ++ ds). rewrite app_assoc. now apply proto_error.
Qed.
Lemma type_intact t pre b out fs ds w : cap = pre ++ b -> shows out fs -> network_intact E t b ds w ->
  reaches (dispatchByEtherType E O cap out (length pre) (length b) t) (fs ++ ds) w.
Proof.
  intros Hc Hs H. unfold dispatchByEtherType. pose proof (ready_add _ _ Hs) as R. pose proof (shows_add _ _ Hs) as Hs2.
  destruct H as [t b Ht|b p d rest ds w Hi Ht|b p d rest ds w Hi Ht].
  - assert (D : reaches (printNdn E O cap (put (addDelimiter out) (str "Ethernet")) (length pre) (length b)) (fs ++ [str "Ethernet"]) b).
    { exists pre, [], (put (addDelimiter out) (str "Ethernet")). split; [now rewrite app_nil_r|]. split; [|reflexivity].
      rewrite (ready_put _ _ _ R). apply shows_fmt. }
    destruct Ht as [-> | ->]; exact D.
  - change (ETH_IP4 =? 2048)%N with true. cbv iota.
    destruct (ip4_step pre b p d rest _ fs Hc Hs2 Hi) as (pre' & out' & Hc' & Hs' & ->).
    change (d :: ds) with ([d] ++ ds). rewrite app_assoc. now apply proto_intact.
  - change (ETH_IP6 =? 2048)%N with false. change (ETH_IP6 =? 34525)%N with true. cbv iota.
    destruct (ip6_step pre b p d rest _ fs Hc Hs2 Hi) as (pre' & out' & Hc' & Hs' & ->).
    change (d :: ds) with ([d] ++ ds). rewrite app_assoc. now apply proto_intact.
Qed.

(** * Frames *)
Definition printFrame (link : link_type) : outcome (fmt * bool) :=
  match link with
  | DltEther => printEther E O cap fmt0 0 (length cap)
  | DltSll => printLinuxSll E O cap fmt0 0 (length cap)
  | DltPpp => printPpp E O cap fmt0 0 (length cap)
  end.

Lemma ether_step t : 14 <= length cap -> word_at cap 12 t ->
  exists pre, cap = pre ++ skipn 14 cap /\
    printEther E O cap fmt0 0 (length cap) = dispatchByEtherType E O cap fmt0 (length pre) (length (skipn 14 cap)) (N.of_nat t).
Proof.
  intros Hl Ht. destruct (split_at cap 14) as [Hb Hlb]; [lia|]. exists (firstn 14 cap). split; [exact Hb|].
  unfold printEther. destruct (Nat.ltb_spec (length cap) 14); [lia|].
  unfold minus. destruct (Nat.leb_spec 14 (length cap)); [|lia]. cbn [bind].
  destruct (rd16_at [] cap 12 t Ht) as (m & Hr & <-). cbn [app length] in Hr. rewrite Hr. cbn [bind].
  rewrite N2Nat.id, Hlb, skipn_length. reflexivity.
Qed.
Lemma sll_step t : 16 <= length cap -> word_at cap 14 t ->
  exists pre, cap = pre ++ skipn 16 cap /\
    printLinuxSll E O cap fmt0 0 (length cap) = dispatchByEtherType E O cap fmt0 (length pre) (length (skipn 16 cap)) (N.of_nat t).
Proof.
  intros Hl Ht. destruct (split_at cap 16) as [Hb Hlb]; [lia|]. exists (firstn 16 cap). split; [exact Hb|].
  unfold printLinuxSll. destruct (Nat.ltb_spec (length cap) 16); [lia|].
  unfold minus. destruct (Nat.leb_spec 16 (length cap)); [|lia]. cbn [bind].
  destruct (rd16_at [] cap 14 t Ht) as (m & Hr & <-). cbn [app length] in Hr. rewrite Hr. cbn [bind].
  rewrite N2Nat.id, Hlb, skipn_length. reflexivity.
Qed.

(** the optional address and control bytes *)
Lemma ppp_step b' : ppp_inside cap b' -> 2 <= length b' ->
  exists pre, cap = pre ++ b' /\ printPpp E O cap fmt0 0 (length cap) = printPppProto E O cap fmt0 (length pre) (length b').
Proof.
  intros H Hl. unfold printPpp. inversion H as [b Hc Hb|b Hn Hc Hb]; subst b'.
  - exists [255; 3]%N. split; [reflexivity|]. cbn [length]. destruct (Nat.ltb_spec (S (S (length b))) 2); [lia|].
    change (rd (255 :: 3 :: b)%N 0) with (Fine 255%N). cbn [bind]. change (255 =? 255)%N with true. cbv iota.
    change (rd (255 :: 3 :: b)%N (0 + 1)) with (Fine 3%N). cbn [bind]. change (3 =? 3)%N with true. cbv iota.
    destruct (Nat.ltb_spec (S (S (length b))) 4); [lia|]. unfold minus. cbn [Nat.leb bind Nat.sub]. rewrite Nat.sub_0_r. reflexivity.
  - exists []. split; [reflexivity|]. destruct (Nat.ltb_spec (length cap) 2); [lia|].
    destruct cap as [|x [|y l]]; cbn [length] in Hl; [lia|lia|].
    change (rd (x :: y :: l) 0) with (Fine x). cbn [bind]. destruct (N.eqb_spec x 255) as [->|]; [|cbn [bind]; reflexivity].
    change (rd (255%N :: y :: l) (0 + 1)) with (Fine y). cbn [bind]. destruct (N.eqb_spec y 3) as [->|]; [|reflexivity].
    exfalso. exact (Hn l eq_refl).
Qed.
Lemma proto_step pre b' p rest : cap = pre ++ b' -> 2 <= length b' -> ppp_proto b' p rest ->
  exists pre', cap = pre' ++ rest /\
    printPppProto E O cap fmt0 (length pre) (length b') =
      (if (p =? 119)%N then
         if length rest <? 2 then Fine (put fmt0 (str "Truncated NDN/PPP frame"), true)
         else r <- minus (length rest) 2 ;; printNdn E O cap (put fmt0 (str "PPP")) (length pre' + 2) r
       else Fine (put (put (put fmt0 (str "[Unsupported PPP proto ")) (hex p)) (str "]"), true)).
Proof.
  intros Hc Hl H. unfold printPppProto. destruct H as [x b Hx|x y b Hx].
  - exists (pre ++ [x]). split; [now rewrite <- app_assoc|]. rewrite Hc at 1. rewrite (rd_at0 _ (x :: b) x eq_refl). cbn [bind].
    rewrite Hx. unfold minus at 1. cbn [length Nat.leb bind Nat.sub]. rewrite Nat.sub_0_r, app_length. reflexivity.
  - exists (pre ++ [x; y]). split; [now rewrite <- app_assoc|]. rewrite Hc at 1. rewrite (rd_at0 _ (x :: y :: b) x eq_refl). cbn [bind].
    rewrite Hx. rewrite Hc at 1. rewrite (rd_at _ (x :: y :: b) 1 y eq_refl). cbn [bind].
    unfold minus at 1. cbn [length Nat.leb bind Nat.sub]. rewrite Nat.sub_0_r, app_length, (N.mul_comm x 256). reflexivity.
Qed.

Lemma frame_error_prints link ds : frame_error E link cap ds -> prints (printFrame link) ds.
Proof.
  intros H. unfold printFrame. remember cap as b eqn:Eb.
  destruct H as [b Hl|b t ds Hl Ht Hn|b Hl|b t ds Hl Ht Hn|b b' Hi Hl|b b' p rest Hi Hl Hp Hne|b b' rest Hi Hl Hp Hlt]; subst b.
  - unfold printEther. destruct (Nat.ltb_spec (length cap) 14); [|lia]. reflexivity.
  - destruct (ether_step t Hl Ht) as (pre & Hc & ->). now apply (type_error _ pre _ fmt0 []).
  - unfold printLinuxSll. destruct (Nat.ltb_spec (length cap) 16); [|lia]. reflexivity.
  - destruct (sll_step t Hl Ht) as (pre & Hc & ->). now apply (type_error _ pre _ fmt0 []).
  - unfold printPpp, prints. inversion Hi as [b Hc Hb|b Hn Hc Hb]; subst b'.
    + cbn [length]. destruct (Nat.ltb_spec (S (S (length b))) 2); [lia|].
      change (rd (255 :: 3 :: b)%N 0) with (Fine 255%N). cbn [bind]. change (255 =? 255)%N with true. cbv iota.
      change (rd (255 :: 3 :: b)%N (0 + 1)) with (Fine 3%N). cbn [bind]. change (3 =? 3)%N with true. cbv iota.
      destruct (Nat.ltb_spec (S (S (length b))) 4); [|lia]. reflexivity.
    + destruct (Nat.ltb_spec (length cap) 2); [|lia]. reflexivity.
  - destruct (ppp_step b' Hi Hl) as (pre & Hc & ->). destruct (proto_step pre b' p rest Hc Hl Hp) as (pre' & Hc' & ->).
    rewrite (proj2 (N.eqb_neq p 119)) by exact Hne. unfold prints, put, fmt0. cbn [f_text f_wantDelim app join]. now rewrite <- !app_assoc.
  - destruct (ppp_step b' Hi Hl) as (pre & Hc & ->). destruct (proto_step pre b' 119 rest Hc Hl Hp) as (pre' & Hc' & ->).
    change (119 =? 119)%N with true. cbv iota. destruct (Nat.ltb_spec (length rest) 2); [|lia]. reflexivity.
Qed.
Lemma frame_intact_reaches link ds w : frame_intact E link cap ds w -> reaches (printFrame link) ds w.
Proof.
  intros H. unfold printFrame. remember cap as b eqn:Eb.
  destruct H as [b t ds w Hl Ht Hn|b t ds w Hl Ht Hn|b b' x y w Hi Hp]; subst b.
  - destruct (ether_step t Hl Ht) as (pre & Hc & ->). now apply (type_intact _ pre _ fmt0 []).
  - destruct (sll_step t Hl Ht) as (pre & Hc & ->). now apply (type_intact _ pre _ fmt0 []).
  - assert (Hl : 2 <= length b') by (inversion Hp; cbn [length]; lia).
    destruct (ppp_step b' Hi Hl) as (pre & Hc & ->). destruct (proto_step pre b' 119 _ Hc Hl Hp) as (pre' & Hc' & ->).
    change (119 =? 119)%N with true. cbv iota. cbn [length Nat.ltb Nat.leb]. unfold minus. cbn [Nat.leb bind Nat.sub]. rewrite Nat.sub_0_r.
    exists (pre' ++ [x; y]), [], (put fmt0 (str "PPP")).
    split; [now rewrite app_nil_r, <- app_assoc|]. split; [split; reflexivity|]. now rewrite app_length.
Qed.

(** * The payload *)
Lemma block_reached pre w post : cap = pre ++ w ++ post -> from_buffer cap (length pre) (length w) = Fine (first_block w).
Proof. intros ->. now apply from_buffer_app2. Qed.

Lemma net_error out fs p more nack d : shows out fs -> packet_error E p d ->
  exists t wire, first_block (p ++ more) = Some (t, wire) /\ prints (Fine (printNet E O out nack t wire)) (fs ++ [d]).
Proof.
  intros Hs H. apply ready_add in Hs as R. destruct H as [t v Hv H5 H6|v what Hv Hw|v what Hv Hw].
  - exists t, (tlv t v). split; [now apply first_block_tlv|]. unfold printNet, TInterest, TDataPacket.
    rewrite (proj2 (N.eqb_neq t 5)), (proj2 (N.eqb_neq t 6)) by assumption. unfold prints. flds R.
  - exists 5%N, (tlv 5 v). split; [now apply first_block_tlv|]. unfold printNet.
    change (5 =? TInterest)%N with true. cbv iota. rewrite Hw. unfold prints. flds R.
  - exists 6%N, (tlv 6 v). split; [now apply first_block_tlv|]. unfold printNet.
    change (6 =? TInterest)%N with false. change (6 =? TDataPacket)%N with true. cbv iota. rewrite Hw. unfold prints. flds R.
Qed.

Lemma payload_error_prints x fs w ds : byte_fragments E -> Forall is_byte w -> reaches x fs w -> payload_error E w ds -> prints x (fs ++ ds).
Proof.
  intros HE HB (pre & post & out & Hc & Hs & ->) H. pose proof (block_reached _ _ _ Hc) as Hb. pose proof (ready_add _ _ Hs) as R.
  pose proof (shows_add _ _ Hs) as Hs2.
  assert (Hlp : shows (put (addDelimiter out) (str "NDNLPv2")) (fs ++ [str "NDNLPv2"])) by (rewrite (ready_put _ _ _ R); apply shows_fmt).
  assert (Hne : w <> []).
  { destruct H; auto; intros X; apply (f_equal (@length N)) in X; rewrite app_length in X; pose proof (tlv_nonempty 100 v);
      try pose proof (tlv_nonempty t v); cbn [length] in X; lia. }
  unfold printNdn. destruct (Nat.eqb_spec (length w) 0) as [X|_]; [destruct w; [congruence|discriminate]|].
  rewrite Hb. cbn [bind].
  destruct H as [b Hb0 Hn|t v more d Ht Hv Hd|v more what Hv Hw|v more i c nack Hv Hw|v more i c frag nack Hv Hw Hn|v more i c p more' nack d Hv Hw Hd].
  - rewrite not_element_block by assumption. unfold prints. flds R.
  - rewrite first_block_tlv by exact Hv. rewrite (proj2 (N.eqb_neq t TLpPacket)) by exact Ht.
    destruct (net_error (addDelimiter out) fs (tlv t v) more None d Hs2 Hd) as (t' & wire & Hf & Hp).
    rewrite first_block_tlv in Hf by exact Hv. injection Hf as <- <-. exact Hp.
  - rewrite first_block_tlv by exact Hv. change (100 =? TLpPacket)%N with true. cbv iota zeta. rewrite Hw. unfold prints. flds R.
  - rewrite first_block_tlv by exact Hv. change (100 =? TLpPacket)%N with true. cbv iota zeta. rewrite Hw. unfold prints. flds R.
  - rewrite first_block_tlv by exact Hv. change (100 =? TLpPacket)%N with true. cbv iota zeta. rewrite Hw.
    rewrite not_element_block by (eauto). unfold prints. flds R.
  - rewrite first_block_tlv by exact Hv. change (100 =? TLpPacket)%N with true. cbv iota zeta. rewrite Hw.
    destruct (net_error _ _ p more' nack d Hlp Hd) as (t' & wire & -> & Hp). rewrite <- app_assoc in Hp. exact Hp.
Qed.
Lemma payload_empty x fs : reaches x fs [] -> exists o, x = Fine (o, false).
Proof. intros (pre & post & out & Hc & Hs & ->). exists out. reflexivity. Qed.

Lemma payload_packet_prints x fs w n ds : reaches x fs w -> payload_packet E w n ds -> good E O x n (fs ++ ds).
Proof.
  intros (pre & post & out & Hc & Hs & ->) H. pose proof (block_reached _ _ _ Hc) as Hb. pose proof (ready_add _ _ Hs) as R.
  pose proof (shows_add _ _ Hs) as Hs2.
  assert (Hlp : shows (put (addDelimiter out) (str "NDNLPv2")) (fs ++ [str "NDNLPv2"])) by (rewrite (ready_put _ _ _ R); apply shows_fmt).
  assert (Hne : 0 < length w).
  { destruct H; rewrite app_length; match goal with |- 0 < length (tlv ?t ?v) + _ => pose proof (tlv_nonempty t v); lia end. }
  unfold printNdn. destruct (Nat.eqb_spec (length w) 0) as [X|_]; [lia|]. rewrite Hb. cbn [bind].
  destruct H; rewrite first_block_tlv by assumption.
  - change (6 =? TLpPacket)%N with false. cbv iota. apply net_good; auto.
  - change (5 =? TLpPacket)%N with false. cbv iota. apply net_good; auto. right. eauto 6.
  - change (100 =? TLpPacket)%N with true. cbv iota zeta. rewrite H0. rewrite first_block_tlv by assumption.
    rewrite <- (app_snoc fs). apply net_good; auto.
  - change (100 =? TLpPacket)%N with true. cbv iota zeta. rewrite H0. rewrite first_block_tlv by assumption.
    rewrite <- (app_snoc fs). apply net_good; auto. right. eauto 6.
  - change (100 =? TLpPacket)%N with true. cbv iota zeta. rewrite H0. rewrite first_block_tlv by assumption.
    rewrite <- (app_snoc fs). apply net_good; auto. right. eauto 8.
  - change (100 =? TLpPacket)%N with true. cbv iota zeta. rewrite H0. rewrite first_block_tlv by assumption.
    unfold printNet. change (5 =? TInterest)%N with true. cbv iota. rewrite H2. unfold good. change (passes E O n) with (matchesFilter E O n).
    destruct (matchesFilter E O n); cbn [negb]; [|eauto]. rewrite <- (app_snoc fs). apply ready_add in Hlp. flds Hlp.
Qed.
End Damage.

(** * Every frame is one of these *)
Lemma transport_total p b : (exists ds, transport_error p b ds) \/ (exists ds w, transport_intact p b ds w).
Proof.
  destruct (N.eq_dec p 59) as [->|]; [left; eexists; constructor|].
  destruct (N.eq_dec p 6) as [->|]; [|destruct (N.eq_dec p 17) as [->|]; [|left; eexists; now constructor]].
  - destruct (Nat.lt_ge_cases (length b) 20) as [H|H]; [left; eexists; now apply TE_tcp_short|].
    destruct (byte_total b 12) as [x Hx]; [lia|].
    destruct (Nat.lt_ge_cases (upper x) 5) as [H5|H5]; [left; eexists; now apply (TE_tcp_offset b x)|].
    destruct (Nat.lt_ge_cases (length b) (4 * upper x)) as [H4|H4]; [left; eexists; now apply (TE_tcp_options b x)|].
    right. eexists _, _. now apply (TI_tcp b x).
  - destruct (Nat.lt_ge_cases (length b) 8) as [H|H]; [left; eexists; now apply TE_udp_short|].
    destruct (word_total b 4) as [l Hl]; [lia|].
    destruct (Nat.lt_ge_cases l 8) as [H5|H5]; [left; eexists; now apply (TE_udp_length b l)|].
    destruct (Nat.lt_ge_cases (length b) l) as [H4|H4]; [left; eexists; now apply (TE_udp_missing b l)|].
    right. eexists _, _. now apply (TI_udp b l).
Qed.
Lemma network_total E t b : (exists ds, network_error E t b ds) \/ (exists ds w, network_intact E t b ds w).
Proof.
  destruct (N.eq_dec t ETH_IP4) as [->|H4]; [|destruct (N.eq_dec t ETH_IP6) as [->|H6]].
  - destruct (Nat.lt_ge_cases (length b) 20) as [H|H]; [left; eexists; now apply NE_ip4_short|].
    destruct (byte_total b 0) as [v Hv]; [lia|].
    destruct (Nat.eq_dec (upper v) 4) as [Hu|Hu]; [|left; eexists; now apply (NE_ip4_version E b v)].
    destruct (Nat.lt_ge_cases (lower v) 5) as [H5|H5]; [left; eexists; now apply (NE_ip4_header E b v)|].
    destruct (word_total b 2) as [l Hl]; [lia|].
    destruct (Nat.lt_ge_cases l (4 * lower v)) as [Hll|Hll]; [left; eexists; now apply (NE_ip4_length E b v l)|].
    destruct (Nat.lt_ge_cases (length b) l) as [Hlm|Hlm]; [left; eexists; now apply (NE_ip4_missing E b v l)|].
    destruct (byte_total b 9) as [p Hp]; [lia|].
    pose proof (I4 b v l p Hv Hu H5 Hl Hll Hlm Hp) as Hi.
    destruct (transport_total p (skipn (4 * lower v) b)) as [[ds Ht]|(ds & w & Ht)];
      [left; eexists; eapply NE_ip4_inside; eassumption|right; eexists _, _; eapply NI_ip4; eassumption].
  - destruct (Nat.lt_ge_cases (length b) 40) as [H|H]; [left; eexists; now apply NE_ip6_short|].
    destruct (byte_total b 0) as [v Hv]; [lia|].
    destruct (Nat.eq_dec (upper v) 6) as [Hu|Hu]; [|left; eexists; now apply (NE_ip6_version E b v)].
    destruct (word_total b 4) as [l Hl]; [lia|].
    destruct (Nat.lt_ge_cases (length b) (40 + l)) as [Hlm|Hlm]; [left; eexists; now apply (NE_ip6_missing E b v l)|].
    destruct (byte_total b 6) as [p Hp]; [lia|].
    pose proof (I6 E b v l p Hv Hu Hl Hlm Hp) as Hi.
    destruct (transport_total p (skipn 40 b)) as [[ds Ht]|(ds & w & Ht)];
      [left; eexists; eapply NE_ip6_inside; eassumption|right; eexists _, _; eapply NI_ip6; eassumption].
  - destruct (N.eq_dec t ETH_NDN) as [->|H1]; [right; eexists _, _; apply NI_ndn; auto|].
    destruct (N.eq_dec t ETH_NDNSIM) as [->|H2]; [right; eexists _, _; apply NI_ndn; auto|].
    left. eexists. now apply NE_unsupported.
Qed.
Lemma ppp_inside_total b : exists b', ppp_inside b b'.
Proof.
  destruct b as [|x [|y l]]; [exists []; constructor; discriminate|exists [x]; constructor; discriminate|].
  destruct (N.eq_dec x 255) as [->|Hx]; [destruct (N.eq_dec y 3) as [->|Hy]|].
  - exists l. constructor.
  - exists (255%N :: y :: l). constructor. congruence.
  - exists (x :: y :: l). constructor. congruence.
Qed.
Lemma frame_total E link b : (exists ds, frame_error E link b ds) \/ (exists ds w, frame_intact E link b ds w).
Proof.
  destruct link.
  - destruct (Nat.lt_ge_cases (length b) 14) as [H|H]; [left; eexists; now apply FE_ether_short|].
    destruct (word_total b 12) as [t Ht]; [lia|].
    destruct (network_total E (N.of_nat t) (skipn 14 b)) as [[ds Hn]|(ds & w & Hn)];
      [left; eexists; eapply FE_ether; eassumption|right; eexists _, _; eapply FI_ether; eassumption].
  - destruct (Nat.lt_ge_cases (length b) 16) as [H|H]; [left; eexists; now apply FE_sll_short|].
    destruct (word_total b 14) as [t Ht]; [lia|].
    destruct (network_total E (N.of_nat t) (skipn 16 b)) as [[ds Hn]|(ds & w & Hn)];
      [left; eexists; eapply FE_sll; eassumption|right; eexists _, _; eapply FI_sll; eassumption].
  - destruct (ppp_inside_total b) as [b' Hi].
    destruct (Nat.lt_ge_cases (length b') 2) as [H|H]; [left; eexists; eapply FE_ppp_short; eassumption|].
    assert (Hp : exists p rest, ppp_proto b' p rest).
    { destruct b' as [|x [|y l]]; cbn [length] in H; [lia|lia|]. destruct (N.odd x) eqn:Ex; [exists x; eexists; now constructor|eexists _, l; now constructor]. }
    destruct Hp as (p & rest & Hp). destruct (N.eq_dec p 119) as [->|Hne]; [|left; eexists; eapply FE_ppp_unsupported; eassumption].
    destruct rest as [|x [|y w]]; [left; eexists; eapply (FE_ppp_ndn E b b'); eauto; cbn; lia|left; eexists; eapply (FE_ppp_ndn E b b'); eauto; cbn; lia|].
    right. eexists _, w. eapply FI_ppp; eassumption.
Qed.
Lemma packet_cases E t v : elem_ok t v ->
  (exists d, packet_error E (tlv t v) d) \/ (t = 5%N /\ exists n txt, e_interest E (tlv 5 v) = inr (n, txt)) \/ (t = 6%N /\ exists n, e_data E (tlv 6 v) = inr n).
Proof.
  intros Hv. destruct (N.eq_dec t 5) as [->|H5]; [|destruct (N.eq_dec t 6) as [->|H6]; [|left; eexists; now constructor]].
  - destruct (e_interest E (tlv 5 v)) as [what|[n txt]] eqn:Ei; [left; eexists; eapply PE_interest; eassumption|eauto 6].
  - destruct (e_data E (tlv 6 v)) as [what|n] eqn:Ei; [left; eexists; eapply PE_data; eassumption|eauto 6].
Qed.
Lemma payload_total E w : byte_fragments E -> Forall is_byte w ->
  w = [] \/ (exists ds, payload_error E w ds) \/ (exists n ds, payload_packet E w n ds).
Proof.
  intros HE HB. destruct w as [|x l] eqn:Ew; [auto|]. right. rewrite <- Ew in *. assert (Hne : w <> []) by (rewrite Ew; discriminate). clear Ew x l.
  destruct (element_cases w HB) as [H|(t & v & rest & Hv & ->)]; [left; eexists; now apply LE_truncated|].
  destruct (N.eq_dec t 100) as [->|Ht].
  - destruct (e_lp E (tlv 100 v)) as [what|i c [frag|] nack] eqn:El.
    + left. eexists. eapply LE_lp_invalid; eassumption.
    + destruct (element_cases frag (HE _ _ _ _ _ El)) as [H|(t' & v' & rest' & Hv' & ->)]; [left; eexists; eapply LE_lp_fragment; eassumption|].
      destruct (packet_cases E t' v' Hv') as [[d Hd]|[(-> & n & txt & Hi)|(-> & n & Hd)]].
      * left. eexists. eapply LE_lp_packet; eassumption.
      * right. destruct nack as [[what|reason]|]; eexists n, _;
          [eapply LP_lp_nack_invalid|eapply LP_lp_nack|eapply LP_lp_interest]; eassumption.
      * right. eexists n, _. eapply LP_lp_data; eassumption.
    + left. eexists. eapply LE_lp_idle; eassumption.
  - destruct (packet_cases E t v Hv) as [[d Hd]|[(-> & n & txt & Hi)|(-> & n & Hd)]].
    + left. eexists. eapply LE_packet; eassumption.
    + right. eexists n, _. eapply LP_interest; eassumption.
    + right. eexists n, _. now apply LP_data.
Qed.

(** * Payloads consist of bytes of the frame *)
Lemma bytes_skipn k b : Forall is_byte b -> Forall is_byte (skipn k b).
Proof. intros H. rewrite <- (firstn_skipn k b) in H. now apply Forall_app in H. Qed.
Lemma bytes_firstn k b : Forall is_byte b -> Forall is_byte (firstn k b).
Proof. intros H. rewrite <- (firstn_skipn k b) in H. now apply Forall_app in H. Qed.
Lemma transport_bytes p b ds w : transport_intact p b ds w -> Forall is_byte b -> Forall is_byte w.
Proof. destruct 1; intros HB; [|apply bytes_firstn]; now apply bytes_skipn. Qed.
Lemma network_bytes E t b ds w : network_intact E t b ds w -> Forall is_byte b -> Forall is_byte w.
Proof.
  destruct 1 as [|? ? ? ? ? ? Hi Ht|? ? ? ? ? ? Hi Ht]; intros HB; [exact HB|destruct Hi|destruct Hi]; apply (transport_bytes _ _ _ _ Ht), bytes_skipn; exact HB.
Qed.
Lemma frame_bytes E link b ds w : frame_intact E link b ds w -> Forall is_byte b -> Forall is_byte w.
Proof.
  destruct 1 as [? ? ? ? ? ? Hn|? ? ? ? ? ? Hn|? ? ? ? ? Hi Hp]; intros HB.
  - apply (network_bytes _ _ _ _ _ Hn), bytes_skipn, HB.
  - apply (network_bytes _ _ _ _ _ Hn), bytes_skipn, HB.
  - assert (HB' : Forall is_byte b') by (destruct Hi; [inversion HB as [|? ? ? HB2]; now inversion HB2|exact HB]).
    inversion Hp; subst b'; repeat match goal with H : Forall is_byte (_ :: _) |- _ => inversion H; subst; clear H end; auto.
Qed.

(** * In the form of the properties *)
Lemma line_of O E b x sec usec : b <> [] ->
  x = printFrame E O b (o_link O) ->
  printPacket E O b (length b) sec usec =
    (r <- x ;; if (snd r : bool) then Fine (Some ((if o_timestamp O then printTimestamp sec usec else []) ++ f_text (fst r))) else Fine None).
Proof.
  intros Hne ->. unfold printPacket. destruct (Nat.eqb_spec (length b) 0) as [X|_]; [destruct b; [congruence|discriminate]|].
  destruct (Nat.ltb_spec (length b) (length b)); [lia|]. reflexivity.
Qed.
Lemma report_header E link f ts b fields sec usec : b <> [] -> frame_error E link b fields ->
  printPacket E (DumpOpts link f ts) b (length b) sec usec = Fine (Some (expected_line ts sec usec fields)).
Proof.
  intros Hne H. rewrite (line_of _ _ _ _ _ _ Hne eq_refl). cbn [o_link]. rewrite (frame_error_prints E (DumpOpts link f ts) b link fields H). reflexivity.
Qed.
Lemma report_payload E link f ts b fields w ds sec usec : b <> [] -> byte_fragments E -> Forall is_byte b ->
  frame_intact E link b fields w -> payload_error E w ds ->
  printPacket E (DumpOpts link f ts) b (length b) sec usec = Fine (Some (expected_line ts sec usec (fields ++ ds))).
Proof.
  intros Hne HE HB H Hp. rewrite (line_of _ _ _ _ _ _ Hne eq_refl). cbn [o_link].
  pose proof (frame_intact_reaches E (DumpOpts link f ts) b link fields w H) as R.
  pose proof (payload_error_prints _ _ _ _ _ _ _ HE (frame_bytes _ _ _ _ _ H HB) R Hp) as P. rewrite P. reflexivity.
Qed.
Lemma report_empty E link f ts b fields sec usec : b <> [] -> frame_intact E link b fields [] ->
  printPacket E (DumpOpts link f ts) b (length b) sec usec = Fine None.
Proof.
  intros Hne H. rewrite (line_of _ _ _ _ _ _ Hne eq_refl). cbn [o_link].
  pose proof (frame_intact_reaches E (DumpOpts link f ts) b link fields [] H) as R.
  destruct (payload_empty _ _ _ _ _ R) as [o ->]. reflexivity.
Qed.
Lemma report_packet E link f ts b fields w n ds sec usec : b <> [] ->
  frame_intact E link b fields w -> payload_packet E w n ds ->
  printPacket E (DumpOpts link f ts) b (length b) sec usec =
    Fine (if match f with None => true | Some p => p (e_uri E n) end then Some (expected_line ts sec usec (fields ++ ds)) else None).
Proof.
  intros Hne H Hp. rewrite (line_of _ _ _ _ _ _ Hne eq_refl). cbn [o_link].
  pose proof (frame_intact_reaches E (DumpOpts link f ts) b link fields w H) as R.
  pose proof (payload_packet_prints _ _ _ _ _ _ _ _ R Hp) as P. unfold good, passes in P. cbn [o_filter] in P.
  destruct f as [p|]; [destruct (p (e_uri E n))|]; [rewrite P; reflexivity|destruct P as [o ->]; reflexivity|rewrite P; reflexivity].
Qed.
Lemma report_total E link b : byte_fragments E -> Forall is_byte b ->
  (exists ds, frame_error E link b ds) \/
  (exists ds w, frame_intact E link b ds w /\ (w = [] \/ (exists es, payload_error E w es) \/ (exists n es, payload_packet E w n es))).
Proof.
  intros HE HB. destruct (frame_total E link b) as [H|(ds & w & H)]; [auto|]. right. exists ds, w. split; [exact H|].
  apply payload_total; [exact HE|]. eapply frame_bytes; eassumption.
Qed.

(** * Hexadecimal numbers *)
Lemma hex_digit_ok d : (d < 16)%N -> hex_digit (if (d <? 10)%N then 48 + d else 87 + d)%N = Some d.
Proof.
  intros H. unfold hex_digit. destruct (N.ltb_spec d 10) as [X|X].
  - destruct (N.leb_spec 48 (48 + d)); [|lia]. destruct (N.leb_spec (48 + d) 57); [|lia]. cbn. f_equal. lia.
  - destruct (N.leb_spec 48 (87 + d)); [|lia]. destruct (N.leb_spec (87 + d) 57); [lia|]. cbn [andb].
    destruct (N.leb_spec 97 (87 + d)); [|lia]. destruct (N.leb_spec (87 + d) 102); [|lia]. cbn. f_equal. lia.
Qed.
Lemma hex_aux_value fuel : forall n acc, (n < 16 ^ N.of_nat fuel)%N ->
  fuel <> O -> exists k, forall b, hexadecimal b (hex_aux fuel n acc) = hexadecimal (16 ^ k * b + n)%N acc.
Proof.
  induction fuel as [|fuel IH]; intros n acc H Hf; [congruence|].
  assert (Hd : (n mod 16 < 16)%N) by (apply N.mod_lt; lia). pose proof (N.div_mod n 16 ltac:(lia)) as Hdm.
  cbn [hex_aux]. destruct (N.ltb_spec n 16) as [Hs|Hs].
  - exists 1%N. intros b. cbn [hexadecimal]. rewrite hex_digit_ok by exact Hd. rewrite (N.mod_small n 16) by exact Hs. reflexivity.
  - assert (Hq : (n / 16 < 16 ^ N.of_nat fuel)%N).
    { apply N.div_lt_upper_bound; [lia|]. rewrite Nat2N.inj_succ, N.pow_succ_r' in H. exact H. }
    assert (Hfu : fuel <> O). { intros ->. cbn in Hq. assert (1 <= n / 16)%N by (apply N.div_le_lower_bound; lia). lia. }
    destruct (IH (n / 16)%N ((if (n mod 16 <? 10)%N then 48 + n mod 16 else 87 + n mod 16)%N :: acc) Hq Hfu) as [k Hk].
    exists (N.succ k). intros b. rewrite Hk. cbn [hexadecimal]. rewrite hex_digit_ok by exact Hd. f_equal. rewrite N.pow_succ_r'. lia.
Qed.
Lemma hex_value n : (n < 18446744073709551616)%N -> exists ds, hex n = str "0x" ++ ds /\ ds <> [] /\ hexadecimal 0 ds = Some n.
Proof.
  intros H. exists (hex_aux 16 n []). split; [reflexivity|].
  destruct (hex_aux_value 16 n [] H ltac:(discriminate)) as [k Hk]. specialize (Hk 0%N). cbn [hexadecimal] in Hk.
  split; [|rewrite Hk; f_equal; lia]. intros X. rewrite X in Hk. cbn in Hk. injection Hk as Hk.
  assert (n = 0)%N by lia. subst n. discriminate.
Qed.
