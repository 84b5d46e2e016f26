(** Lemmas about the printing functions of ndndump. *)
From Verif Require Import Base TlvModel TlvProofs PingModel DumpModel DumpSpec.
From Coq Require Import String List.
Import ListNotations.
Local Open Scope nat_scope.
Local Open Scope list_scope.

(** * Bounds (C39) *)
Section Bounds.
Variable E : env.
Variable O : dump_opts.
Variable cap : list N.

Definition fine {A} (x : outcome A) : Prop := exists a, x = Fine a.
Lemma fine_Fine A (a : A) : fine (Fine a). Proof. now exists a. Qed.
Lemma fine_bind A B (x : outcome A) (f : A -> outcome B) : fine x -> (forall a, x = Fine a -> fine (f a)) -> fine (bind x f).
Proof. intros [a ->] H. cbn. now apply H. Qed.
Lemma fine_rd i : i < length cap -> fine (rd cap i).
Proof. intros H. unfold rd. destruct (nth_error cap i) eqn:E1; [apply fine_Fine|]. apply nth_error_None in E1. lia. Qed.
Lemma fine_rd16 i : i + 1 < length cap -> fine (rd16 cap i).
Proof. intros H. unfold rd16. apply fine_bind; [apply fine_rd; lia|]. intros. apply fine_bind; [apply fine_rd; lia|]. intros. apply fine_Fine. Qed.
Lemma fine_range i n : i + n <= length cap -> fine (rd_range cap i n).
Proof. intros H. unfold rd_range. destruct (Nat.leb_spec (i + n) (length cap)); [apply fine_Fine|lia]. Qed.
Lemma fine_minus a b : b <= a -> fine (minus a b).
Proof. intros H. unfold minus. destruct (Nat.leb_spec b a); [apply fine_Fine|lia]. Qed.
Lemma minus_val a b c : minus a b = Fine c -> c = a - b /\ b <= a.
Proof. unfold minus. destruct (Nat.leb_spec b a) as [L|L]; intros X; inversion X; auto. Qed.

Ltac bounds :=
  repeat match goal with
  | |- fine (Fine _) => apply fine_Fine
  | |- fine (if ?b then _ else _) => destruct b eqn:?
  | |- fine (bind (minus _ _) _) => apply fine_bind; [apply fine_minus; lia|]; intros ? ?
  | |- fine (bind (rd _ _) _) => apply fine_bind; [apply fine_rd; lia|]; intros ? ?
  | |- fine (bind (rd16 _ _) _) => apply fine_bind; [apply fine_rd16; lia|]; intros ? ?
  | |- fine (bind (rd_range _ _ _) _) => apply fine_bind; [apply fine_range; lia|]; intros ? ?
  | H : minus _ _ = Fine _ |- _ => apply minus_val in H; destruct H as [-> ?]
  end.

Lemma printNdn_fine out pkt len : pkt + len <= length cap -> fine (printNdn E O cap out pkt len).
Proof.
  intros H. unfold printNdn. destruct (len =? 0); [apply fine_Fine|].
  unfold from_buffer. destruct (Nat.leb_spec (pkt + len) (length cap)); [|lia]. cbn [bind].
  destruct (first_block _) as [[t w]|]; [|apply fine_Fine]. destruct (t =? TLpPacket)%N; [|apply fine_Fine].
  destruct (e_lp E w) as [m|? ? [fr|] nk]; try apply fine_Fine. destruct (first_block fr) as [[]|]; apply fine_Fine.
Qed.
Lemma printUdp_fine out pkt len : pkt + len <= length cap -> fine (printUdp E O cap out pkt len).
Proof. intros H. unfold printUdp. bounds. apply printNdn_fine. lia. Qed.
Lemma printTcp_fine out pkt len : pkt + len <= length cap -> fine (printTcp E O cap out pkt len).
Proof. intros H. unfold printTcp. bounds. apply printNdn_fine. lia. Qed.
Lemma ipproto_fine out pkt len p : pkt + len <= length cap -> fine (dispatchByIpProto E O cap out pkt len p).
Proof. intros H. unfold dispatchByIpProto. bounds; [now apply printTcp_fine|now apply printUdp_fine]. Qed.
Lemma printIp4_fine out pkt len : pkt + len <= length cap -> fine (printIp4 E O cap out pkt len).
Proof. intros H. unfold printIp4. bounds. apply ipproto_fine. lia. Qed.
Lemma printIp6_fine out pkt len : pkt + len <= length cap -> fine (printIp6 E O cap out pkt len).
Proof. intros H. unfold printIp6. bounds. apply ipproto_fine. lia. Qed.
Lemma ethertype_fine out pkt len t : pkt + len <= length cap -> fine (dispatchByEtherType E O cap out pkt len t).
Proof. intros H. unfold dispatchByEtherType. bounds; [now apply printIp4_fine|now apply printIp6_fine|now apply printNdn_fine]. Qed.
Lemma printEther_fine out pkt len : pkt + len <= length cap -> fine (printEther E O cap out pkt len).
Proof. intros H. unfold printEther. bounds. apply ethertype_fine. lia. Qed.
Lemma printSll_fine out pkt len : pkt + len <= length cap -> fine (printLinuxSll E O cap out pkt len).
Proof. intros H. unfold printLinuxSll. bounds. apply ethertype_fine. lia. Qed.
Lemma printPppProto_fine out pkt len : 2 <= len -> pkt + len <= length cap -> fine (printPppProto E O cap out pkt len).
Proof.
  intros H2 H. unfold printPppProto. apply fine_bind; [apply fine_rd; lia|]. intros b _. apply fine_bind.
  - bounds.
  - intros [proto [p l]] Hx. assert (p + l <= length cap).
    { destruct (N.odd b); cbn [bind] in Hx.
      - destruct (minus len 1) eqn:Em; cbn [bind] in Hx; inversion Hx; subst. apply minus_val in Em. lia.
      - destruct (rd cap (pkt + 1)); cbn [bind] in Hx; try discriminate. destruct (minus len 2) eqn:Em; cbn [bind] in Hx; inversion Hx; subst. apply minus_val in Em. lia. }
    bounds. apply printNdn_fine. lia.
Qed.
Lemma printPpp_fine out pkt len : pkt + len <= length cap -> fine (printPpp E O cap out pkt len).
Proof.
  intros H. unfold printPpp. bounds. apply fine_bind; [bounds|]. intros fr _. bounds; apply printPppProto_fine; lia.
Qed.
Lemma printPacket_fine sec usec : fine (printPacket E O cap (length cap) sec usec).
Proof.
  unfold printPacket. bounds. apply fine_bind.
  - destruct (o_link O); [apply printEther_fine|apply printSll_fine|apply printPpp_fine]; lia.
  - intros [o b] _. cbn. destruct b; apply fine_Fine.
Qed.

(** no wrap-around, whatever is captured *)
Definition nowrap {A} (x : outcome A) : Prop := x <> Wraparound.
Lemma nw_Fine A (a : A) : nowrap (Fine a). Proof. discriminate. Qed.
Lemma nw_bind A B (x : outcome A) (f : A -> outcome B) : nowrap x -> (forall a, x = Fine a -> nowrap (f a)) -> nowrap (bind x f).
Proof. intros H1 H2. destruct x; cbn; [now apply H2|discriminate|now elim H1]. Qed.
Lemma nw_rd i : nowrap (rd cap i). Proof. unfold rd. destruct (nth_error cap i); discriminate. Qed.
Lemma nw_rd16 i : nowrap (rd16 cap i).
Proof. unfold rd16. apply nw_bind; [apply nw_rd|]. intros. apply nw_bind; [apply nw_rd|]. intros. apply nw_Fine. Qed.
Lemma nw_range i n : nowrap (rd_range cap i n). Proof. unfold rd_range. destruct (_ <=? _); discriminate. Qed.
Lemma nw_minus a b : b <= a -> nowrap (minus a b). Proof. intros H. destruct (fine_minus a b H) as [c ->]. discriminate. Qed.
Ltac nw :=
  repeat match goal with
  | |- nowrap (Fine _) => apply nw_Fine
  | |- nowrap (if ?b then _ else _) => destruct b eqn:?
  | |- nowrap (bind (minus _ _) _) => apply nw_bind; [apply nw_minus; lia|]; intros ? ?
  | |- nowrap (bind (rd _ _) _) => apply nw_bind; [apply nw_rd|]; intros ? _
  | |- nowrap (bind (rd16 _ _) _) => apply nw_bind; [apply nw_rd16|]; intros ? _
  | |- nowrap (bind (rd_range _ _ _) _) => apply nw_bind; [apply nw_range|]; intros ? _
  | H : minus _ _ = Fine _ |- _ => apply minus_val in H; destruct H as [-> ?]
  end.
Lemma printNdn_nw out pkt len : nowrap (printNdn E O cap out pkt len).
Proof.
  unfold printNdn. nw. unfold from_buffer. apply nw_bind.
  - destruct (_ <=? _); [discriminate|]. destruct (first_block _); discriminate.
  - intros [[t w]|] _; [|discriminate]. nw.
    destruct (e_lp E w) as [m|? ? [fr|] nk]; try discriminate. destruct (first_block fr) as [[]|]; discriminate.
Qed.
Lemma printUdp_nw out pkt len : nowrap (printUdp E O cap out pkt len).
Proof. unfold printUdp. nw. apply printNdn_nw. Qed.
Lemma printTcp_nw out pkt len : nowrap (printTcp E O cap out pkt len).
Proof. unfold printTcp. nw. apply printNdn_nw. Qed.
Lemma ipproto_nw out pkt len p : nowrap (dispatchByIpProto E O cap out pkt len p).
Proof. unfold dispatchByIpProto. nw; [apply printTcp_nw|apply printUdp_nw]. Qed.
Lemma printIp4_nw out pkt len : nowrap (printIp4 E O cap out pkt len).
Proof. unfold printIp4. nw. apply ipproto_nw. Qed.
Lemma printIp6_nw out pkt len : nowrap (printIp6 E O cap out pkt len).
Proof. unfold printIp6. nw. apply ipproto_nw. Qed.
Lemma ethertype_nw out pkt len t : nowrap (dispatchByEtherType E O cap out pkt len t).
Proof. unfold dispatchByEtherType. nw; [apply printIp4_nw|apply printIp6_nw|apply printNdn_nw]. Qed.
Lemma printPppProto_nw out pkt len : 2 <= len -> nowrap (printPppProto E O cap out pkt len).
Proof.
  intros H2. unfold printPppProto. nw. apply nw_bind; [nw|]. intros [proto [p l]] _. nw. apply printNdn_nw.
Qed.
Lemma printPpp_nw out pkt len : nowrap (printPpp E O cap out pkt len).
Proof. unfold printPpp. nw. apply nw_bind; [nw|]. intros fr _. nw; apply printPppProto_nw; lia. Qed.
Lemma printPacket_nw len sec usec : nowrap (printPacket E O cap len sec usec).
Proof.
  unfold printPacket. nw. apply nw_bind.
  - destruct (o_link O); [unfold printEther; nw; apply ethertype_nw|unfold printLinuxSll; nw; apply ethertype_nw|apply printPpp_nw].
  - intros [o b] _. cbn. destruct b; discriminate.
Qed.
End Bounds.

(** * Reading concatenated bytes *)
Lemma rd_app (pre l : list N) i b : nth_error l i = Some b -> rd (pre ++ l) (length pre + i) = Fine b.
Proof. intros H. unfold rd. rewrite nth_error_app2 by lia. replace (length pre + i - length pre) with i by lia. now rewrite H. Qed.
Lemma rd16_app (pre l : list N) i a b : nth_error l i = Some a -> nth_error l (i + 1) = Some b ->
  rd16 (pre ++ l) (length pre + i) = Fine (a * 256 + b)%N.
Proof.
  intros H1 H2. unfold rd16. rewrite (rd_app pre l i a H1). cbn [bind].
  rewrite <- Nat.add_assoc, (rd_app pre l (i + 1) b H2). reflexivity.
Qed.
Lemma range_app (pre a m c : list N) : rd_range (pre ++ a ++ m ++ c) (length pre + length a) (length m) = Fine m.
Proof.
  unfold rd_range. rewrite !app_length. destruct (Nat.leb_spec (length pre + length a + length m) (length pre + (length a + (length m + length c)))); [|lia].
  f_equal. rewrite app_assoc, skipn_app, app_length, Nat.sub_diag, skipn_all2 by (rewrite app_length; lia). cbn [skipn app].
  now rewrite firstn_app, Nat.sub_diag, firstn_all, app_nil_r.
Qed.
Lemma be2 n : (n < 65536)%N -> exists a b, be 2 n = [a; b] /\ (a * 256 + b = n)%N.
Proof.
  intros H. exists ((n / 256) mod 256)%N, (n mod 256)%N. split; [reflexivity|].
  rewrite (N.mod_small (n / 256)) by (apply N.div_lt_upper_bound; lia). pose proof (N.div_mod n 256). lia.
Qed.

Lemma first_block_tlv t v rest : elem_ok t v -> first_block (tlv t v ++ rest) = Some (t, tlv t v).
Proof.
  intros H. unfold first_block. rewrite read_tlv_tlv by exact H. f_equal. f_equal.
  rewrite app_length. replace (length (tlv t v) + length rest - length rest) with (length (tlv t v)) by lia.
  now rewrite firstn_app, Nat.sub_diag, firstn_all, app_nil_r.
Qed.
Lemma from_buffer_app pre l n : length l <= n -> n <= length l -> from_buffer (pre ++ l) (length pre) n = Fine (first_block l).
Proof.
  intros H1 H2. unfold from_buffer. rewrite app_length. destruct (Nat.leb_spec (length pre + n) (length pre + length l)); [|lia].
  rewrite skipn_app, Nat.sub_diag, skipn_all. cbn [skipn app]. now rewrite firstn_all2 by lia.
Qed.
Lemma from_buffer_app2 pre l more n : n = length l -> from_buffer (pre ++ l ++ more) (length pre) n = Fine (first_block l).
Proof.
  intros ->. unfold from_buffer. rewrite !app_length. destruct (Nat.leb_spec (length pre + length l) (length pre + (length l + length more))); [|lia].
  rewrite skipn_app, Nat.sub_diag, skipn_all. cbn [skipn app]. now rewrite firstn_app, Nat.sub_diag, firstn_all, app_nil_r.
Qed.

(** * The formatter *)
(** [shows out fs]: the fields written so far are [fs], the next output continues the last one *)
Definition shows (out : fmt) (fs : list text) : Prop :=
  match fs with
  | [] => out = fmt0
  | _ => f_text out = join fs /\ f_isEmpty out = false
  end.
Lemma join_snoc fs f : fs <> [] -> join (fs ++ [f]) = join fs ++ str ", " ++ f.
Proof.
  intros H. induction fs as [|a fs IH]; [congruence|]. destruct fs as [|b fs]; [reflexivity|].
  change ((a :: b :: fs) ++ [f]) with (a :: ((b :: fs) ++ [f])).
  change (join (a :: b :: fs)) with (a ++ str ", " ++ join (b :: fs)).
  assert (E : join (a :: (b :: fs) ++ [f]) = a ++ str ", " ++ join ((b :: fs) ++ [f])) by reflexivity.
  rewrite E, IH by discriminate. now rewrite <- !app_assoc.
Qed.
Lemma join_app fs gs : fs <> [] -> gs <> [] -> join (fs ++ gs) = join fs ++ str ", " ++ join gs.
Proof.
  intros H. revert gs. induction fs as [|a fs IH]; [congruence|]. intros gs Hg. destruct fs as [|b fs].
  - destruct gs; [congruence|]. reflexivity.
  - change ((a :: b :: fs) ++ gs) with (a :: ((b :: fs) ++ gs)).
    assert (E : join (a :: (b :: fs) ++ gs) = a ++ str ", " ++ join ((b :: fs) ++ gs)) by reflexivity.
    rewrite E, IH by (auto; discriminate). change (join (a :: b :: fs)) with (a ++ str ", " ++ join (b :: fs)). now rewrite <- !app_assoc.
Qed.

(** [out] shows [fs], and a delimiter is wanted unless nothing was written *)
Definition ready (out : fmt) (fs : list text) : Prop :=
  match fs with
  | [] => out = fmt0
  | _ => out = Fmt (join fs) false true
  end.
Lemma ready_add out fs : shows out fs -> ready (addDelimiter out) fs.
Proof.
  destruct fs; cbn [shows ready]; [intros ->; reflexivity|]. intros [H1 H2]. unfold addDelimiter. rewrite H2, H1. reflexivity.
Qed.
Lemma ready_again out fs : ready out fs -> addDelimiter out = out.
Proof. destruct fs; cbn [ready]; intros ->; reflexivity. Qed.
Lemma ready_put out fs v : ready out fs -> put out v = Fmt (join (fs ++ [v])) false false.
Proof.
  destruct fs as [|a fs]; cbn [ready]; intros ->; [reflexivity|]. unfold put. cbn [f_text f_wantDelim].
  now rewrite join_snoc by discriminate.
Qed.
Lemma join_ext fs v w : join (fs ++ [v]) ++ w = join (fs ++ [v ++ w]).
Proof.
  destruct fs as [|a fs]; [reflexivity|]. rewrite !join_snoc by discriminate. now rewrite <- !app_assoc.
Qed.
Lemma put_put fs v w : put (Fmt (join (fs ++ [v])) false false) w = Fmt (join (fs ++ [v ++ w])) false false.
Proof. unfold put. cbn [f_text f_wantDelim app]. now rewrite join_ext. Qed.
Lemma shows_fmt fs v : shows (Fmt (join (fs ++ [v])) false false) (fs ++ [v]).
Proof. unfold shows. destruct (fs ++ [v]) eqn:E; [destruct fs; discriminate|]. auto. Qed.

(** * Decapsulation (C40, C41) *)
Section Decap.
Variable E : env.
Variable O : dump_opts.

Definition passes (n : name) : bool := match o_filter O with None => true | Some f => f (e_uri E n) end.

(** the result expected from a printing function *)
Definition good (x : outcome (fmt * bool)) (n : name) (fs : list text) : Prop :=
  if passes n then x = Fine (Fmt (join fs) false false, true)
  else exists o, x = Fine (o, false).

Lemma app_snoc {A} (l : list A) x r : (l ++ [x]) ++ r = l ++ x :: r.
Proof. now rewrite <- app_assoc. Qed.

Lemma net_good out fs t v nack n ds :
  shows out fs ->
  (t = 6%N /\ e_data E (tlv 6 v) = inr n /\ ds = [str "DATA: " ++ e_uri E n]) \/
  (t = 5%N /\ exists txt, e_interest E (tlv 5 v) = inr (n, txt) /\
     ((nack = None /\ ds = [str "INTEREST: " ++ txt]) \/
      (exists r, nack = Some (inr r) /\ ds = [str "NACK (" ++ r ++ str "): " ++ txt]))) ->
  good (Fine (printNet E O out nack t (tlv t v))) n (fs ++ ds).
Proof.
  intros Hs H. apply ready_add in Hs. unfold printNet. set (o := addDelimiter out) in *.
  unfold good. change (passes n) with (matchesFilter E O n).
  destruct H as [(-> & Hd & ->)|(-> & txt & Hi & H)].
  - change (6 =? TInterest)%N with false. change (6 =? TDataPacket)%N with true. cbv iota. rewrite Hd.
    destruct (matchesFilter E O n); cbn [negb]; [|eauto].
    rewrite (ready_put _ _ _ Hs), put_put. reflexivity.
  - change (5 =? TInterest)%N with true. cbv iota. rewrite Hi.
    destruct (matchesFilter E O n); cbn [negb]; [|eauto].
    destruct H as [[-> ->]|(r & -> & ->)]; rewrite (ready_put _ _ _ Hs), !put_put; [reflexivity|].
    now rewrite <- !app_assoc.
Qed.

Lemma ndn_good pre w more n ds out fs len : describes E w n ds -> shows out fs -> length w <= len ->
  (forall l, from_buffer (pre ++ w ++ more) (length pre) len = Fine l -> True) ->
  from_buffer (pre ++ w ++ more) (length pre) len = Fine (first_block w) ->
  good (printNdn E O (pre ++ w ++ more) out (length pre) len) n (fs ++ ds).
Proof.
  intros Hd Hs Hl _ Hb. unfold printNdn.
  assert (Hw : 1 <= length w) by (destruct Hd; apply tlv_nonempty).
  destruct (Nat.eqb_spec len 0); [lia|]. rewrite Hb. cbn [bind].
  apply ready_add in Hs as Hr. assert (Hs2 : shows (addDelimiter out) fs).
  { destruct fs; cbn in *; [now rewrite Hs|]. destruct Hs as [H1 H2]. unfold addDelimiter. rewrite H2. cbn. auto. }
  assert (Hlp : shows (put (addDelimiter out) (str "NDNLPv2")) (fs ++ [str "NDNLPv2"])) by (rewrite (ready_put _ _ _ Hr); apply shows_fmt).
  destruct Hd as [v n Hv Hd|v n txt Hv Hi|v i c v' n nack Hv Hlpv Hv' Hd|v i c v' n txt Hv Hlpv Hv' Hi|v i c v' n txt r Hv Hlpv Hv' Hi];
    rewrite <- (app_nil_r (tlv _ _)) at 1; rewrite first_block_tlv by exact Hv.
  - change (6 =? TLpPacket)%N with false. cbv iota. apply net_good; [exact Hs2|]. left. auto.
  - change (5 =? TLpPacket)%N with false. cbv iota. apply net_good; [exact Hs2|]. right. eauto 6.
  - change (100 =? TLpPacket)%N with true. cbv iota. rewrite Hlpv.
    rewrite <- (app_nil_r (tlv 6 v')) at 1. rewrite first_block_tlv by exact Hv'.
    change (fs ++ [str "NDNLPv2"; str "DATA: " ++ e_uri E n]) with (fs ++ [str "NDNLPv2"] ++ [str "DATA: " ++ e_uri E n]). rewrite app_assoc.
    apply net_good; [exact Hlp|]. left. auto.
  - change (100 =? TLpPacket)%N with true. cbv iota. rewrite Hlpv.
    rewrite <- (app_nil_r (tlv 5 v')) at 1. rewrite first_block_tlv by exact Hv'.
    change (fs ++ [str "NDNLPv2"; str "INTEREST: " ++ txt]) with (fs ++ [str "NDNLPv2"] ++ [str "INTEREST: " ++ txt]). rewrite app_assoc.
    apply net_good; [exact Hlp|]. right. eauto 6.
  - change (100 =? TLpPacket)%N with true. cbv iota. rewrite Hlpv.
    rewrite <- (app_nil_r (tlv 5 v')) at 1. rewrite first_block_tlv by exact Hv'.
    change (fs ++ [str "NDNLPv2"; str "NACK (" ++ r ++ str "): " ++ txt]) with (fs ++ [str "NDNLPv2"] ++ [str "NACK (" ++ r ++ str "): " ++ txt]). rewrite app_assoc.
    apply net_good; [exact Hlp|]. right. eauto 8.
Qed.
Lemma first_block_desc w n ds more : describes E w n ds -> first_block (w ++ more) = first_block w.
Proof. destruct 1; rewrite <- (app_nil_r (tlv _ _)) at 2; now rewrite !first_block_tlv. Qed.

Lemma ndn_good_all pre w more n ds out fs len : describes E w n ds -> shows out fs -> len = length (w ++ more) ->
  good (printNdn E O (pre ++ w ++ more) out (length pre) len) n (fs ++ ds).
Proof.
  intros Hd Hs ->. apply ndn_good; auto; [rewrite app_length; lia|].
  rewrite from_buffer_app by lia. f_equal. eapply first_block_desc; eauto.
Qed.
Lemma ndn_good_exact pre w more n ds out fs : describes E w n ds -> shows out fs ->
  good (printNdn E O (pre ++ w ++ more) out (length pre) (length w)) n (fs ++ ds).
Proof. intros Hd Hs. apply ndn_good; auto. now apply from_buffer_app2. Qed.

Ltac blist H := destruct H as [H _];
  match type of H with length ?l = _ => repeat (destruct l as [|? l]; [discriminate H|apply Nat.succ_inj in H]) ; destruct l; [|discriminate H]; clear H end.

Lemma udp_good pre sport dport cks w pad n ds out fs : describes E w n ds -> shows out fs ->
  byte_list 2 sport -> byte_list 2 dport -> byte_list 2 cks -> (Z.of_nat (8 + length w) <= 65535)%Z ->
  good (printUdp E O (pre ++ udp sport dport cks w ++ pad) out (length pre) (length (udp sport dport cks w ++ pad))) n
       (fs ++ str "UDP" :: len_field w :: ds).
Proof.
  intros Hd Hs H1 H2 H3 Hl. blist H1. blist H2. blist H3.
  destruct (be2 (N.of_nat (8 + length w))) as (a & b & Hab & Hv); [lia|].
  unfold udp, printUdp. rewrite Hab. cbn [app]. set (hdr := [n0; n1; n2; n3; a; b; n4; n5]).
  set (body := n0 :: n1 :: n2 :: n3 :: a :: b :: n4 :: n5 :: w ++ pad).
  assert (Hlen : length body = 8 + length w + length pad) by (unfold body; cbn [length]; rewrite app_length; lia).
  destruct (Nat.ltb_spec (length body) 8); [lia|].
  rewrite (rd16_app pre body 4 a b eq_refl eq_refl). cbn [bind]. rewrite Hv, Nat2N.id.
  destruct (Nat.ltb_spec (8 + length w) 8); [lia|]. destruct (Nat.ltb_spec (length body) (8 + length w)); [lia|].
  unfold minus. destruct (Nat.leb_spec 8 (8 + length w)); [|lia]. cbn [bind].
  replace (8 + length w - 8) with (length w) by lia.
  replace (pre ++ body) with ((pre ++ hdr) ++ w ++ pad) by (unfold body, hdr; rewrite <- app_assoc; reflexivity).
  replace (length pre + 8) with (length (pre ++ hdr)) by (rewrite app_length; reflexivity).
  replace (fs ++ str "UDP" :: len_field w :: ds) with (((fs ++ [str "UDP"]) ++ [len_field w]) ++ ds) by (now rewrite <- !app_assoc).
  apply ndn_good_exact; [exact Hd|].
  apply ready_add in Hs. rewrite (ready_put _ _ _ Hs). pose proof (shows_fmt fs (str "UDP")) as Hs1.
  apply ready_add in Hs1. rewrite (ready_put _ _ _ Hs1), put_put. apply shows_fmt.
Qed.

Lemma div4 k : Nat.modulo k 4 = 0 -> k / 4 * 4 = k.
Proof. intros H. pose proof (Nat.div_mod k 4). lia. Qed.

Lemma tcp_good pre h12 x h7 options w more n ds out fs : describes E w n ds -> shows out fs ->
  byte_list 12 h12 -> (x < 16)%N -> byte_list 7 h7 -> Nat.modulo (length options) 4 = 0 -> length options <= 40 ->
  good (printTcp E O (pre ++ tcp h12 x h7 options (w ++ more)) out (length pre) (length (tcp h12 x h7 options (w ++ more)))) n
       (fs ++ str "TCP" :: len_field (w ++ more) :: ds).
Proof.
  intros Hd Hs H1 Hx H2 Hm Ho. destruct H1 as [H1 _]. destruct H2 as [H2 _]. pose proof (div4 _ Hm) as Hdiv.
  unfold tcp, printTcp. set (b := (16 * N.of_nat (5 + length options / 4) + x)%N).
  set (body := h12 ++ b :: h7 ++ options ++ w ++ more).
  set (hdr := h12 ++ b :: h7 ++ options).
  assert (Hbh : body = hdr ++ w ++ more) by (unfold body, hdr; cbn; rewrite <- !app_assoc; cbn; now rewrite <- !app_assoc).
  assert (Hh : length hdr = 20 + length options) by (unfold hdr; rewrite app_length; cbn [length]; rewrite app_length; lia).
  assert (Hlen : length body = 20 + length options + length (w ++ more)) by (rewrite Hbh, app_length; lia).
  destruct (Nat.ltb_spec (length body) 20); [lia|].
  assert (Hnth : nth_error body 12 = Some b). { unfold body. rewrite nth_error_app2 by lia. rewrite H1. reflexivity. }
  rewrite (rd_app pre body 12 b Hnth). cbn [bind].
  assert (Hb : (b / 16 = N.of_nat (5 + length options / 4))%N).
  { unfold b. rewrite N.mul_comm, N.div_add_l by lia. rewrite (N.div_small x) by exact Hx. lia. }
  rewrite Hb, Nat2N.id. replace ((5 + length options / 4) * 4) with (20 + length options) by lia.
  destruct (Nat.ltb_spec (20 + length options) 20); [lia|]. destruct (Nat.ltb_spec (length body) (20 + length options)); [lia|].
  unfold minus. destruct (Nat.leb_spec (20 + length options) (length body)); [|lia]. cbn [bind].
  replace (length body - (20 + length options)) with (length (w ++ more)) by lia.
  rewrite Hbh, app_assoc, <- Hh, <- app_length.
  replace (fs ++ str "TCP" :: len_field (w ++ more) :: ds) with (((fs ++ [str "TCP"]) ++ [len_field (w ++ more)]) ++ ds) by (now rewrite <- !app_assoc).
  apply ndn_good_all; [exact Hd| |reflexivity].
  apply ready_add in Hs. rewrite (ready_put _ _ _ Hs). pose proof (shows_fmt fs (str "TCP")) as Hs1.
  apply ready_add in Hs1. rewrite (ready_put _ _ _ Hs1), put_put. apply shows_fmt.
Qed.

Lemma add_add out : addDelimiter (addDelimiter out) = addDelimiter out.
Proof. destruct out as [t [|] d]; reflexivity. Qed.

Lemma transport_good pre proto b pad n ds out fs : transport E proto b pad n ds -> shows out fs ->
  good (dispatchByIpProto E O (pre ++ b ++ pad) out (length pre) (length (b ++ pad)) proto) n (fs ++ ds).
Proof.
  intros H Hs. assert (Hs2 : shows (addDelimiter out) fs).
  { destruct fs; cbn in *; [now rewrite Hs|]. destruct Hs as [H1 H2]. unfold addDelimiter. rewrite H2. cbn. auto. }
  unfold dispatchByIpProto. destruct H.
  - change (17 =? 59)%N with false. change (17 =? 6)%N with false. change (17 =? 17)%N with true. cbv iota.
    now apply udp_good.
  - change (6 =? 59)%N with false. change (6 =? 6)%N with true. cbv iota. rewrite app_nil_r. now apply tcp_good.
Qed.

Lemma ip4_good pre x y proto z src dst options b pad n ds out fs :
  transport E proto b pad n ds -> shows out fs ->
  byte_list 5 y -> byte_list 2 z -> byte_list 4 src -> byte_list 4 dst ->
  Nat.modulo (length options) 4 = 0 -> length options <= 40 -> (Z.of_nat (20 + length options + length b) <= 65535)%Z ->
  let body := ipv4 x y proto z src dst options b ++ pad in
  good (printIp4 E O (pre ++ body) out (length pre) (length body)) n
       (fs ++ (str "IP " ++ ntop4 src ++ str " > " ++ ntop4 dst) :: ds).
Proof.
  intros Ht Hs Hy Hz Hsrc Hdst Hm Ho Hl. pose proof (div4 _ Hm) as Hdiv.
  destruct (be2 (N.of_nat (20 + length options + length b))) as (l1 & l2 & Hbe & Hv); [lia|].
  unfold ipv4. rewrite Hbe. set (b0 := (64 + N.of_nat (5 + length options / 4))%N).
  destruct Hy as [Hy _]. destruct Hz as [Hz _]. destruct Hsrc as [Hsrc _]. destruct Hdst as [Hdst _].
  set (hdr := b0 :: x :: [l1; l2] ++ y ++ proto :: z ++ src ++ dst ++ options).
  assert (Hh : length hdr = 20 + length options).
  { unfold hdr. cbn [length app]. rewrite app_length. cbn [length]. rewrite !app_length. lia. }
  cbv zeta. match goal with |- good (_ _ _ (pre ++ ?B) _ _ _) _ _ => replace B with (hdr ++ b ++ pad) by
    (unfold hdr; cbn [app]; rewrite <- !app_assoc; cbn [app]; now rewrite <- !app_assoc) end.
  set (body := hdr ++ b ++ pad).
  assert (Hlen : length body = 20 + length options + length b + length pad) by (unfold body; rewrite !app_length; lia).
  unfold printIp4. destruct (Nat.ltb_spec (length body) 20); [lia|].
  rewrite <- (Nat.add_0_r (length pre)) at 1. rewrite (rd_app pre body 0 b0 eq_refl). cbn [bind].
  assert (Hk : (N.of_nat (5 + length options / 4) < 16)%N) by lia.
  assert (Hv4 : (b0 / 16 = 4)%N).
  { unfold b0. replace 64%N with (4 * 16)%N by lia. rewrite N.div_add_l by lia. rewrite (N.div_small _ 16) by exact Hk. lia. }
  assert (Hhl : (b0 mod 16 = N.of_nat (5 + length options / 4))%N).
  { unfold b0. replace 64%N with (4 * 16)%N by lia. rewrite N.add_comm, N.mod_add by lia. now apply N.mod_small. }
  rewrite Hv4, Hhl, Nat2N.id. change (4 =? 4)%N with true. cbn [negb]. replace ((5 + length options / 4) * 4) with (20 + length options) by lia.
  destruct (Nat.ltb_spec (20 + length options) 20); [lia|].
  rewrite (rd16_app pre body 2 l1 l2 eq_refl eq_refl). cbn [bind]. rewrite Hv, Nat2N.id.
  destruct (Nat.ltb_spec (20 + length options + length b) (20 + length options)); [lia|].
  destruct (Nat.ltb_spec (length body) (20 + length options + length b)); [lia|].
  assert (E1 : body = (b0 :: x :: [l1; l2] ++ y ++ proto :: z) ++ src ++ (dst ++ options ++ b ++ pad)).
  { unfold body, hdr. cbn [app]. rewrite <- !app_assoc. cbn [app]. now rewrite <- !app_assoc. }
  assert (E2 : body = (b0 :: x :: [l1; l2] ++ y ++ proto :: z ++ src) ++ dst ++ (options ++ b ++ pad)).
  { unfold body, hdr. cbn [app]. rewrite <- !app_assoc. cbn [app]. now rewrite <- !app_assoc. }
  assert (R1 : rd_range (pre ++ body) (length pre + 12) 4 = Fine src).
  { rewrite E1. replace 12 with (length (b0 :: x :: [l1; l2] ++ y ++ proto :: z)).
    - rewrite <- Hsrc. apply range_app.
    - cbn [length app]. rewrite app_length. cbn [length]. lia. }
  assert (R2 : rd_range (pre ++ body) (length pre + 16) 4 = Fine dst).
  { rewrite E2. replace 16 with (length (b0 :: x :: [l1; l2] ++ y ++ proto :: z ++ src)).
    - rewrite <- Hdst. apply range_app.
    - cbn [length app]. rewrite app_length. cbn [length]. rewrite app_length. lia. }
  rewrite R1. cbn [bind]. rewrite R2. cbn [bind].
  unfold minus. destruct (Nat.leb_spec (20 + length options) (length body)); [|lia]. cbn [bind].
  assert (R3 : nth_error body 9 = Some proto).
  { unfold body. rewrite nth_error_app1 by lia. unfold hdr.
    change (nth_error (y ++ proto :: z ++ src ++ dst ++ options) 5 = Some proto).
    rewrite nth_error_app2 by lia. rewrite Hy. reflexivity. }
  rewrite (rd_app pre body 9 proto R3). cbn [bind].
  replace (length body - (20 + length options)) with (length (b ++ pad)) by (rewrite app_length; lia).
  unfold body. rewrite app_assoc, <- Hh, <- app_length.
  match goal with |- good _ _ (fs ++ ?f :: ds) => replace (fs ++ f :: ds) with ((fs ++ [f]) ++ ds) by (now rewrite <- app_assoc) end.
  apply transport_good; [exact Ht|].
  apply ready_add in Hs. rewrite (ready_put _ _ _ Hs), !put_put, <- !app_assoc. apply shows_fmt.
Qed.

Lemma ip6_good pre x y next hops src dst b pad n ds out fs :
  transport E next b pad n ds -> shows out fs -> (x < 16)%N ->
  byte_list 3 y -> byte_list 16 src -> byte_list 16 dst -> (Z.of_nat (length b) <= 65535)%Z ->
  let body := ipv6 x y next hops src dst b ++ pad in
  good (printIp6 E O (pre ++ body) out (length pre) (length body)) n
       (fs ++ (str "IP6 " ++ e_ntop6 E src ++ str " > " ++ e_ntop6 E dst) :: ds).
Proof.
  intros Ht Hs Hx Hy Hsrc Hdst Hl.
  destruct (be2 (N.of_nat (length b))) as (l1 & l2 & Hbe & Hv); [lia|].
  unfold ipv6. rewrite Hbe. set (b0 := (96 + x)%N). blist Hy.
  destruct Hsrc as [Hsrc _]. destruct Hdst as [Hdst _].
  set (hdr := b0 :: n0 :: n1 :: n2 :: l1 :: l2 :: next :: hops :: src ++ dst).
  assert (Hh : length hdr = 40) by (unfold hdr; cbn [length]; rewrite !app_length; lia).
  cbv zeta. match goal with |- good (_ _ _ (pre ++ ?B) _ _ _) _ _ => replace B with (hdr ++ b ++ pad) by
    (unfold hdr; cbn [app]; now rewrite <- !app_assoc) end.
  set (body := hdr ++ b ++ pad).
  assert (Hlen : length body = 40 + length b + length pad) by (unfold body; rewrite !app_length; lia).
  unfold printIp6. destruct (Nat.ltb_spec (length body) 40); [lia|].
  rewrite <- (Nat.add_0_r (length pre)) at 1. rewrite (rd_app pre body 0 b0 eq_refl). cbn [bind].
  assert (Hv6 : (b0 / 16 = 6)%N).
  { unfold b0. replace 96%N with (6 * 16)%N by lia. rewrite N.div_add_l by lia. rewrite (N.div_small _ 16) by exact Hx. lia. }
  rewrite Hv6. change (6 =? 6)%N with true. cbn [negb].
  unfold minus at 1. destruct (Nat.leb_spec 40 (length body)); [|lia]. cbn [bind].
  rewrite (rd16_app pre body 4 l1 l2 eq_refl eq_refl). cbn [bind]. rewrite Hv, Nat2N.id.
  replace (length body - 40) with (length (b ++ pad)) by (rewrite app_length; lia).
  destruct (Nat.ltb_spec (length (b ++ pad)) (length b)); [rewrite app_length in *; lia|].
  assert (E1 : body = [b0; n0; n1; n2; l1; l2; next; hops] ++ src ++ (dst ++ b ++ pad)).
  { unfold body, hdr. cbn [app]. now rewrite <- !app_assoc. }
  assert (E2 : body = ([b0; n0; n1; n2; l1; l2; next; hops] ++ src) ++ dst ++ (b ++ pad)).
  { unfold body, hdr. cbn [app]. now rewrite <- !app_assoc. }
  assert (R1 : rd_range (pre ++ body) (length pre + 8) 16 = Fine src).
  { rewrite E1. rewrite <- Hsrc. apply (range_app pre [b0; n0; n1; n2; l1; l2; next; hops]). }
  assert (R2 : rd_range (pre ++ body) (length pre + 24) 16 = Fine dst).
  { rewrite E2. replace 24 with (length ([b0; n0; n1; n2; l1; l2; next; hops] ++ src)).
    - rewrite <- Hdst. apply range_app.
    - rewrite app_length. cbn [length]. lia. }
  rewrite R1. cbn [bind]. rewrite R2. cbn [bind].
  rewrite (rd_app pre body 6 next eq_refl). cbn [bind].
  unfold body. rewrite app_assoc, <- Hh, <- app_length.
  match goal with |- good _ _ (fs ++ ?f :: ds) => replace (fs ++ f :: ds) with ((fs ++ [f]) ++ ds) by (now rewrite <- app_assoc) end.
  apply transport_good; [exact Ht|].
  apply ready_add in Hs. rewrite (ready_put _ _ _ Hs), !put_put, <- !app_assoc. apply shows_fmt.
Qed.

Lemma carried_good pre type b n ds out fs : carried E type b n ds -> shows out fs ->
  good (dispatchByEtherType E O (pre ++ b) out (length pre) (length b) type) n (fs ++ ds).
Proof.
  intros H Hs. assert (Hs2 : shows (addDelimiter out) fs).
  { destruct fs; cbn in *; [now rewrite Hs|]. destruct Hs as [H1 H2]. unfold addDelimiter. rewrite H2. cbn. auto. }
  unfold dispatchByEtherType. destruct H as [type w pad n ds Hd Ht|x y proto z src dst options b pad n ds Ht|x y next hops src dst b pad n ds Ht].
  - replace (type =? 2048)%N with false by (destruct Ht; subst; reflexivity). replace (type =? 34525)%N with false by (destruct Ht; subst; reflexivity).
    replace ((type =? 34340) || (type =? 30583))%N with true by (destruct Ht; subst; reflexivity). cbv iota.
    match goal with |- good _ _ (fs ++ ?f :: ds) => replace (fs ++ f :: ds) with ((fs ++ [f]) ++ ds) by (now rewrite <- app_assoc) end.
    apply ndn_good_all; [exact Hd| |reflexivity].
    apply ready_add in Hs. rewrite (ready_put _ _ _ Hs). apply shows_fmt.
  - change (ETH_IP4 =? 2048)%N with true. cbv iota. now apply ip4_good.
  - change (ETH_IP6 =? 2048)%N with false. change (ETH_IP6 =? 34525)%N with true. cbv iota. now apply ip6_good.
Qed.

Lemma type_small type b n ds : carried E type b n ds -> (type < 65536)%N.
Proof. destruct 1 as [? ? ? ? ? ? [->| ->]| |]; reflexivity. Qed.

Lemma captured_good b n ds : captured E (o_link O) b n ds ->
  good (match o_link O with
        | DltEther => printEther E O b fmt0 0 (length b)
        | DltSll => printLinuxSll E O b fmt0 0 (length b)
        | DltPpp => printPpp E O b fmt0 0 (length b)
        end) n ds.
Proof.
  remember (o_link O) as l eqn:El. clear El. destruct 1 as [dst src type b n ds Hc H1 H2|header type b n ds Hc H1|framed compressed x y w pad n ds Hd].
  - unfold printEther, ethernet. destruct (be2 type) as (t1 & t2 & Hbe & Hv); [eapply type_small; eauto|]. rewrite Hbe.
    set (hdr := dst ++ src ++ [t1; t2]). replace (dst ++ src ++ [t1; t2] ++ b) with (hdr ++ b) by (unfold hdr; now rewrite <- !app_assoc).
    assert (Hh : length hdr = 14) by (unfold hdr; rewrite !app_length; cbn [length]; lia).
    rewrite app_length. destruct (Nat.ltb_spec (length hdr + length b) 14); [lia|].
    unfold minus. destruct (Nat.leb_spec 14 (length hdr + length b)); [|lia]. cbn [bind].
    assert (R : rd16 (hdr ++ b) (0 + 12) = Fine (t1 * 256 + t2)%N).
    { replace (hdr ++ b) with ((dst ++ src) ++ [t1; t2] ++ b) by (unfold hdr; now rewrite <- !app_assoc).
      replace (0 + 12) with (length (dst ++ src) + 0) by (rewrite app_length; lia). now apply rd16_app. }
    rewrite R. cbn [bind]. rewrite Hv. replace (0 + 14) with (length hdr) by lia.
    replace (length hdr + length b - 14) with (length b) by lia.
    apply (carried_good hdr type b n ds fmt0 []); [exact Hc|reflexivity].
  - unfold printLinuxSll, linux_sll. destruct (be2 type) as (t1 & t2 & Hbe & Hv); [eapply type_small; eauto|]. rewrite Hbe.
    set (hdr := header ++ [t1; t2]). replace (header ++ [t1; t2] ++ b) with (hdr ++ b) by (unfold hdr; now rewrite <- !app_assoc).
    assert (Hh : length hdr = 16) by (unfold hdr; rewrite !app_length; cbn [length]; lia).
    rewrite app_length. destruct (Nat.ltb_spec (length hdr + length b) 16); [lia|].
    unfold minus. destruct (Nat.leb_spec 16 (length hdr + length b)); [|lia]. cbn [bind].
    assert (R : rd16 (hdr ++ b) (0 + 14) = Fine (t1 * 256 + t2)%N).
    { replace (hdr ++ b) with (header ++ [t1; t2] ++ b) by (unfold hdr; now rewrite <- !app_assoc).
      replace (0 + 14) with (length header + 0) by lia. now apply rd16_app. }
    rewrite R. cbn [bind]. rewrite Hv. replace (0 + 16) with (length hdr) by lia.
    replace (length hdr + length b - 16) with (length b) by lia.
    apply (carried_good hdr type b n ds fmt0 []); [exact Hc|reflexivity].
  - assert (Hw : 1 <= length w) by (destruct Hd; apply tlv_nonempty).
    unfold ppp, printPpp.
    assert (Core : forall hdr, length hdr <= 2 -> (hdr = [] \/ length hdr = 2) ->
      let proto := if compressed then [119]%N else [0; 119]%N in
      good (printPppProto E O (hdr ++ proto ++ x :: y :: w ++ pad) fmt0 (length hdr) (length (proto ++ x :: y :: w ++ pad))) n (str "PPP" :: ds)).
    { intros hdr _ _. cbv zeta. unfold printPppProto.
      destruct compressed; cbn [app length].
      - set (rest := 119%N :: x :: y :: w ++ pad). rewrite <- (Nat.add_0_r (length hdr)) at 1.
        rewrite (rd_app hdr rest 0 119%N eq_refl). cbn [bind]. change (N.odd 119) with true. cbv iota.
        unfold minus at 1. cbn [Nat.leb bind Nat.sub]. change (119 =? 119)%N with true. cbv iota.
        cbn [Nat.ltb Nat.leb]. unfold minus. cbn [Nat.leb bind Nat.sub]. rewrite Nat.sub_0_r.
        replace (hdr ++ rest) with ((hdr ++ [119%N; x; y]) ++ w ++ pad) by (unfold rest; now rewrite <- app_assoc).
        replace (length hdr + 1 + 2) with (length (hdr ++ [119%N; x; y])) by (rewrite app_length; cbn [length]; lia).
        apply (ndn_good_all _ w pad n ds _ [str "PPP"]); [exact Hd|split; reflexivity|reflexivity].
      - set (rest := 0%N :: 119%N :: x :: y :: w ++ pad). rewrite <- (Nat.add_0_r (length hdr)) at 1.
        rewrite (rd_app hdr rest 0 0%N eq_refl). cbn [bind]. change (N.odd 0) with false. cbv iota.
        rewrite (rd_app hdr rest 1 119%N eq_refl). cbn [bind].
        unfold minus at 1. cbn [Nat.leb bind Nat.sub]. change (0 * 256 + 119 =? 119)%N with true. cbv iota.
        cbn [Nat.ltb Nat.leb]. unfold minus. cbn [Nat.leb bind Nat.sub]. rewrite Nat.sub_0_r.
        replace (hdr ++ rest) with ((hdr ++ [0%N; 119%N; x; y]) ++ w ++ pad) by (unfold rest; now rewrite <- app_assoc).
        replace (length hdr + 2 + 2) with (length (hdr ++ [0%N; 119%N; x; y])) by (rewrite app_length; cbn [length]; lia).
        apply (ndn_good_all _ w pad n ds _ [str "PPP"]); [exact Hd|split; reflexivity|reflexivity]. }
    destruct framed.
    + specialize (Core [255; 3]%N (le_n 2) (or_intror eq_refl)). cbv zeta in Core. cbn [app].
      set (rest := (if compressed then [119]%N else [0; 119]%N) ++ x :: y :: w ++ pad) in *.
      assert (Hr : 3 <= length rest) by (unfold rest; rewrite app_length; destruct compressed; cbn [length]; lia).
      cbn [length]. destruct (Nat.ltb_spec (S (S (length rest))) 2); [lia|].
      change (rd (255%N :: 3%N :: rest) 0) with (Fine 255%N). cbn [bind]. change (255 =? 255)%N with true. cbv iota.
      change (rd (255%N :: 3%N :: rest) (0 + 1)) with (Fine 3%N). cbn [bind]. change (3 =? 3)%N with true. cbv iota.
      destruct (Nat.ltb_spec (S (S (length rest))) 4); [lia|]. unfold minus. cbn [Nat.leb bind Nat.sub]. rewrite Nat.sub_0_r.
      exact Core.
    + specialize (Core [] (Nat.le_0_l 2) (or_introl eq_refl)). cbv zeta in Core. cbn [app length] in *.
      set (rest := (if compressed then [119]%N else [0; 119]%N) ++ x :: y :: w ++ pad) in *.
      assert (Hr : 3 <= length rest) by (unfold rest; rewrite app_length; destruct compressed; cbn [length]; lia).
      destruct (Nat.ltb_spec (length rest) 2); [lia|].
      replace (rd rest 0) with (Fine (if compressed then 119%N else 0%N)) by (unfold rest; destruct compressed; reflexivity). cbn [bind].
      replace ((if compressed then 119%N else 0%N) =? 255)%N with false by (destruct compressed; reflexivity). cbn [bind].
      exact Core.
Qed.

Lemma captured_nonempty l b n ds : captured E l b n ds -> b <> [].
Proof.
  destruct 1; intros X; apply (f_equal (@length N)) in X; revert X.
  - unfold ethernet. rewrite !app_length. cbn. lia.
  - unfold linux_sll. rewrite !app_length. cbn. lia.
  - unfold ppp. rewrite !app_length. cbn. lia.
Qed.
Lemma packet_good b n ds sec usec : captured E (o_link O) b n ds ->
  printPacket E O b (length b) sec usec =
    Fine (if passes n then Some (expected_line (o_timestamp O) sec usec ds) else None).
Proof.
  intros H. pose proof (captured_good b n ds H) as G. unfold printPacket.
  destruct (Nat.eqb_spec (length b) 0) as [Hz|_].
  { exfalso. apply (captured_nonempty _ _ _ _ H). now destruct b. }
  destruct (Nat.ltb_spec (length b) (length b)); [lia|].
  unfold good in G. destruct (passes n).
  - rewrite G. reflexivity.
  - destruct G as [o ->]. reflexivity.
Qed.
End Decap.
