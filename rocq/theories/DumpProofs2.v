(** Lemmas about the printing functions of ndndump, continued: filter and line format. *)
From Verif Require Import Base TlvModel TlvProofs PingModel PingProofs DumpModel DumpSpec DumpProofs.
From Coq Require Import String List.
Import ListNotations.
Local Open Scope nat_scope.
Local Open Scope list_scope.

(** * The filter (C41) *)
Section Filter.
Variable E : env.
Variable cap : list N.
Variable L : link_type.
Variable T : bool.
Definition op (fl : option (text -> bool)) : dump_opts := DumpOpts L fl T.

(** either the filter does not matter, or it is applied to the name of the packet *)
Definition dep (g : option (text -> bool) -> outcome (fmt * bool)) : Prop :=
  (forall f, g (Some f) = g None) \/
  (exists n, decoded_name E n /\ forall f : text -> bool, if f (e_uri E n) then g (Some f) = g None else exists o, g (Some f) = Fine (o, false)).

Lemma dep_const x : dep (fun _ => x). Proof. now left. Qed.
Lemma dep_bind A (x : outcome A) (g : A -> option (text -> bool) -> outcome (fmt * bool)) :
  (forall a, dep (g a)) -> dep (fun fl => bind x (fun a => g a fl)).
Proof. intros H. destruct x as [a| |]; cbn [bind]; [apply H|apply dep_const|apply dep_const]. Qed.
Lemma dep_if (b : bool) g h : dep g -> dep h -> dep (fun fl => if b then g fl else h fl).
Proof. destruct b; auto. Qed.

Lemma net_dep out nack t w : dep (fun fl => Fine (printNet E (op fl) out nack t w)).
Proof.
  unfold printNet. destruct (t =? TInterest)%N.
  - destruct (e_interest E w) as [what|[n txt]] eqn:Ei; [apply dep_const|]. right. exists n. split; [left; eauto|].
    intros f. unfold matchesFilter, op. cbn [o_filter]. destruct (f (e_uri E n)); cbn [negb]; eauto.
  - destruct (t =? TDataPacket)%N; [|apply dep_const].
    destruct (e_data E w) as [what|n] eqn:Ei; [apply dep_const|]. right. exists n. split; [right; eauto|].
    intros f. unfold matchesFilter, op. cbn [o_filter]. destruct (f (e_uri E n)); cbn [negb]; eauto.
Qed.
Ltac dps := repeat match goal with
  | |- dep (fun fl => if ?b then _ else _) => apply (dep_if b)
  | |- dep (fun fl => bind ?x _) => apply (dep_bind _ x); intros ?
  | |- dep (fun fl => Fine (printNet _ _ _ _ _ _)) => apply net_dep
  | |- dep (fun _ => Fine _) => apply dep_const
  end.
Lemma ndn_dep out pkt len : dep (fun fl => printNdn E (op fl) cap out pkt len).
Proof.
  unfold printNdn. dps. destruct a as [[t w]|]; dps.
  destruct (e_lp E w) as [m|? ? [fr|] nk]; dps. destruct (first_block fr) as [[]|]; dps.
Qed.
Lemma udp_dep out pkt len : dep (fun fl => printUdp E (op fl) cap out pkt len).
Proof. unfold printUdp. dps. apply ndn_dep. Qed.
Lemma tcp_dep out pkt len : dep (fun fl => printTcp E (op fl) cap out pkt len).
Proof. unfold printTcp. dps. apply ndn_dep. Qed.
Lemma proto_dep out pkt len p : dep (fun fl => dispatchByIpProto E (op fl) cap out pkt len p).
Proof. unfold dispatchByIpProto. dps; [apply tcp_dep|apply udp_dep]. Qed.
Lemma ip4_dep out pkt len : dep (fun fl => printIp4 E (op fl) cap out pkt len).
Proof. unfold printIp4. dps. apply proto_dep. Qed.
Lemma ip6_dep out pkt len : dep (fun fl => printIp6 E (op fl) cap out pkt len).
Proof. unfold printIp6. dps. apply proto_dep. Qed.
Lemma etype_dep out pkt len t : dep (fun fl => dispatchByEtherType E (op fl) cap out pkt len t).
Proof. unfold dispatchByEtherType. dps; [apply ip4_dep|apply ip6_dep|apply ndn_dep]. Qed.
Lemma pppproto_dep out pkt len : dep (fun fl => printPppProto E (op fl) cap out pkt len).
Proof. unfold printPppProto. dps. destruct a0 as [proto [p l]]. dps. apply ndn_dep. Qed.
Lemma ppp_dep out pkt len : dep (fun fl => printPpp E (op fl) cap out pkt len).
Proof. unfold printPpp. dps; apply pppproto_dep. Qed.

Lemma packet_dep len sec usec :
  let P fl := printPacket E (op fl) cap len sec usec in
  (forall f, P (Some f) = P None) \/
  (exists n, decoded_name E n /\ forall f : text -> bool, P (Some f) = if f (e_uri E n) then P None else Fine None).
Proof.
  cbv zeta. unfold printPacket. destruct (length cap =? 0); [now left|]. destruct (len =? 0); [now left|].
  destruct (len <? length cap); [now left|].
  assert (D : dep (fun fl => match o_link (op fl) with
         | DltEther => printEther E (op fl) cap fmt0 0 len
         | DltSll => printLinuxSll E (op fl) cap fmt0 0 len
         | DltPpp => printPpp E (op fl) cap fmt0 0 len
         end)).
  { unfold op at 1. cbn [o_link]. destruct L; [unfold printEther; dps; apply etype_dep|unfold printLinuxSll; dps; apply etype_dep|apply ppp_dep]. }
  destruct D as [D|(n & Hn & D)].
  - left. intros f. rewrite D. reflexivity.
  - right. exists n. split; [exact Hn|]. intros f. specialize (D f). destruct (f (e_uri E n)); [rewrite D; reflexivity|].
    destruct D as [o ->]. reflexivity.
Qed.
End Filter.

(** * Decimal numbers *)
Lemma dec_aux_digits fuel : forall n acc, Forall digit acc -> Forall digit (dec_aux fuel n acc).
Proof.
  induction fuel as [|fuel IH]; intros n acc H; [exact H|]. cbn [dec_aux].
  assert (Forall digit ((48 + n mod 10)%N :: acc)).
  { constructor; [|exact H]. unfold digit. pose proof (N.mod_lt n 10). lia. }
  destruct (n <? 10)%N; auto.
Qed.
Lemma to_string_digits n : Forall digit (to_string n).
Proof. apply dec_aux_digits. constructor. Qed.
Lemma dec_aux_nonempty fuel n acc : acc <> [] -> dec_aux fuel n acc <> [].
Proof.
  revert n acc. induction fuel as [|fuel IH]; intros n acc H; [exact H|]. cbn [dec_aux].
  destruct (n <? 10)%N; [discriminate|]. apply IH. discriminate.
Qed.
Lemma to_string_nonempty n : to_string n <> [].
Proof. unfold to_string. cbn [dec_aux]. destruct (n <? 10)%N; [discriminate|]. apply (dec_aux_nonempty 19). discriminate. Qed.
Lemma to_string_decimal n : (n < 18446744073709551616)%N -> decimal (to_string n) n.
Proof.
  intros H. split; [apply to_string_digits|]. apply (of_dec_aux 20 n []); [|lia].
  assert (E' : (10 ^ N.of_nat 20)%N = 100000000000000000000%N) by (vm_compute; reflexivity). rewrite E'. lia.
Qed.
Lemma dec_aux_len fuel k : forall n acc, (n < 10 ^ N.of_nat k)%N -> (0 < k) -> length (dec_aux fuel n acc) <= k + length acc.
Proof.
  revert k. induction fuel as [|fuel IH]; intros k n acc H Hk; [cbn; lia|]. cbn [dec_aux].
  destruct (N.ltb_spec n 10) as [L|L]; [cbn [length]; lia|].
  destruct k as [|k]; [lia|]. rewrite Nat2N.inj_succ, N.pow_succ_r' in H.
  destruct k as [|k]; [cbn in H; lia|].
  etransitivity; [apply (IH (S k)); [apply N.div_lt_upper_bound; lia|lia]|]. cbn [length]. lia.
Qed.
Lemma zeros_value k : fold_left (fun a d => 10 * a + (d - 48))%N (repeat 48%N k) 0%N = 0%N.
Proof. induction k as [|k IH]; [reflexivity|]. cbn [repeat fold_left]. exact IH. Qed.
Lemma pad6_decimal n : (n < 1000000)%N -> length (pad6 (to_string n)) = 6 /\ decimal (pad6 (to_string n)) n.
Proof.
  intros H. assert (Hl : length (to_string n) <= 6) by (apply (dec_aux_len 20 6 n []); [exact H|lia]).
  unfold pad6. split; [rewrite app_length, repeat_length; lia|].
  destruct (to_string_decimal n) as [D V]; [lia|]. split.
  - apply Forall_app. split; [|exact D]. apply Forall_forall. intros x Hx. apply repeat_spec in Hx. subst x. unfold digit. lia.
  - rewrite fold_left_app, zeros_value. exact V.
Qed.
Lemma timestamp_shape sec usec : (sec < 18446744073709551616)%N -> (usec < 1000000)%N ->
  exists s f, printTimestamp sec usec = s ++ str "." ++ f ++ str " " /\ s <> [] /\ decimal s sec /\ length f = 6 /\ decimal f usec.
Proof.
  intros Hs Hu. destruct (pad6_decimal usec Hu) as [Hl Hd]. exists (to_string sec), (pad6 (to_string usec)).
  repeat split; try assumption; try apply Hd; try apply to_string_decimal; auto. apply to_string_nonempty.
Qed.

(** * The line format (C42) *)
Definition ncomma (t : text) : Prop := ~ In comma t.
Lemma nc_digits l : Forall digit l -> ncomma l.
Proof. intros H X. rewrite Forall_forall in H. specialize (H _ X). unfold digit, comma in H. lia. Qed.
Lemma nc_tostring n : ncomma (to_string n). Proof. apply nc_digits, to_string_digits. Qed.
Lemma nc_dec n : ncomma (dec n). Proof. apply nc_tostring. Qed.
Lemma nc_app a b : ncomma a -> ncomma b -> ncomma (a ++ b).
Proof. intros H1 H2 X. apply in_app_or in X. destruct X; [now apply H1|now apply H2]. Qed.
Lemma hex_aux_nc fuel : forall n acc, ncomma acc -> ncomma (hex_aux fuel n acc).
Proof.
  induction fuel as [|fuel IH]; intros n acc H; [exact H|]. cbn [hex_aux].
  assert (ncomma ((if (n mod 16 <? 10)%N then (48 + n mod 16)%N else (87 + n mod 16)%N) :: acc)).
  { intros [X|X]; [|now apply H]. unfold comma in X. destruct (N.ltb_spec (n mod 16) 10); lia. }
  destruct (n <? 16)%N; auto.
Qed.
Definition ncb (t : text) : bool := forallb (fun c => negb (c =? comma)%N) t.
Lemma ncb_ok t : ncb t = true -> ncomma t.
Proof. intros H X. unfold ncb in H. rewrite forallb_forall in H. specialize (H _ X). rewrite N.eqb_refl in H. discriminate. Qed.
Lemma nc_hex n : ncomma (hex n).
Proof. unfold hex. apply nc_app; [now apply ncb_ok|]. apply hex_aux_nc. intros []. Qed.
Lemma nc_ntop4 a : ncomma (ntop4 a).
Proof.
  unfold ntop4. destruct a as [|w [|x [|y [|z [|]]]]]; try (now apply ncb_ok).
  repeat (apply nc_app; [first [apply nc_tostring | now apply ncb_ok]|]). apply nc_tostring.
Qed.

Definition okf (o : fmt) : Prop := o = fmt0 \/ (f_isEmpty o = false /\ line_of_fields (f_text o)).
Definition okf2 (o : fmt) : Prop := f_isEmpty o = false /\ f_wantDelim o = false /\ line_of_fields (f_text o).
Lemma okf2_okf o : okf2 o -> okf o. Proof. intros (H1 & H2 & H3). right. auto. Qed.
Lemma okf_add o : okf o -> okf (addDelimiter o).
Proof. intros [->|[H1 H2]]; [now left|]. right. unfold addDelimiter. rewrite H1. cbn. auto. Qed.
Lemma line_more t v : line_of_fields t -> ncomma v -> line_of_fields (t ++ v).
Proof.
  intros (fs & H1 & H2 & ->) Hv. destruct (exists_last H1) as (fs' & x & ->). exists (fs' ++ [x ++ v]). split; [destruct fs'; discriminate|].
  split; [|apply join_ext]. apply Forall_app in H2. destruct H2 as [H2 H3]. apply Forall_app. split; [exact H2|]. inversion_clear H3.
  constructor; [|constructor]. destruct H as [Ha Hb]. split; [destruct x; [congruence|discriminate]|]. now apply nc_app.
Qed.
Lemma line_field t v : line_of_fields t -> field v -> line_of_fields (t ++ str ", " ++ v).
Proof.
  intros (fs & H1 & H2 & ->) Hv. exists (fs ++ [v]). split; [destruct fs; discriminate|]. split; [|symmetry; now apply join_snoc].
  apply Forall_app. split; [exact H2|]. constructor; [exact Hv|constructor].
Qed.
Lemma put_first o v : okf o -> field v -> okf2 (put o v).
Proof.
  intros [->|[H1 H2]] Hv.
  - repeat split. exists [v]. split; [discriminate|]. split; [constructor; [exact Hv|constructor]|reflexivity].
  - split; [reflexivity|]. split; [reflexivity|]. unfold put. cbn [f_text]. destruct (f_wantDelim o); [now apply line_field|].
    cbn [app]. apply line_more; [exact H2|apply Hv].
Qed.
Lemma put_more o v : okf2 o -> ncomma v -> okf2 (put o v).
Proof.
  intros (H1 & H2 & H3) Hv. split; [reflexivity|]. split; [reflexivity|]. unfold put. cbn [f_text]. rewrite H2. cbn [app]. now apply line_more.
Qed.

Lemma line_app t l : line_of_fields t -> line_of_fields l -> line_of_fields (t ++ str ", " ++ l).
Proof.
  intros (fs & H1 & H2 & ->) (gs & H3 & H4 & ->). exists (fs ++ gs). split; [destruct fs; [congruence|discriminate]|].
  split; [apply Forall_app; auto|]. symmetry. now apply join_app.
Qed.
Lemma put_line o v : okf o -> line_of_fields v -> okf2 (put (addDelimiter o) v).
Proof.
  intros [->|[H1 H2]] Hv.
  - repeat split. exact Hv.
  - split; [reflexivity|]. split; [reflexivity|]. unfold addDelimiter. rewrite H1. cbn [put f_text f_wantDelim]. now apply line_app.
Qed.
Lemma put_line0 v : line_of_fields v -> okf2 (put fmt0 v).
Proof. intros Hv. repeat split. exact Hv. Qed.
Lemma put_len o a b : okf2 o -> ncomma a -> field b -> okf2 (put o (a ++ str ", " ++ b)).
Proof.
  intros (H1 & H2 & H3) Ha Hb. split; [reflexivity|]. split; [reflexivity|]. unfold put. cbn [f_text]. rewrite H2. cbn [app].
  rewrite app_assoc. apply line_field; [|exact Hb]. now apply line_more.
Qed.
Lemma put_sep o a v : okf2 o -> ncomma a -> field v -> okf2 (put (put o (a ++ str ", ")) v).
Proof.
  intros (H1 & H2 & H3) Ha Hb. split; [reflexivity|]. split; [reflexivity|]. unfold put. cbn [f_text f_wantDelim]. rewrite H2. cbn [app].
  rewrite app_assoc, <- app_assoc. apply line_field; [|exact Hb]. now apply line_more.
Qed.
Lemma field_dec n : field (dec n).
Proof. split; [apply to_string_nonempty|apply nc_dec]. Qed.

Section Format.
Variable E : env.
Variable O : dump_opts.
Variable cap : list N.
Hypothesis HE : no_commas E.

Definition post (x : outcome (fmt * bool)) : Prop := forall o, x = Fine (o, true) -> okf2 o.
Lemma post_Fine o b : okf2 o -> post (Fine (o, b)). Proof. intros H o' X. inversion X; subst; exact H. Qed.
Lemma post_false o : post (Fine (o, false)). Proof. intros o' X. discriminate. Qed.
Lemma post_bind A (x : outcome A) g : (forall a, post (g a)) -> post (bind x g).
Proof. intros H. destruct x; cbn [bind]; [apply H|discriminate|discriminate]. Qed.
Lemma post_if (b : bool) x y : post x -> post y -> post (if b then x else y). Proof. destruct b; auto. Qed.
Lemma okf2_if (b : bool) x y : okf2 x -> okf2 y -> okf2 (if b then x else y). Proof. destruct b; auto. Qed.
Lemma nc_uri n : ncomma (e_uri E n). Proof. apply HE. Qed.
Lemma nc_ntop6 n : ncomma (e_ntop6 E n). Proof. apply HE. Qed.
Lemma field_str s : (match str s with [] => false | _ => true end && ncb (str s))%bool = true -> field (str s).
Proof. intros H. apply andb_prop in H. destruct H as [H1 H2]. split; [destruct (str s); discriminate|]. now apply ncb_ok. Qed.

Ltac nc := first [assumption | apply nc_dec | apply nc_tostring | apply nc_hex | apply nc_ntop4 | apply nc_uri | apply nc_ntop6 | apply ncb_ok; reflexivity].
Ltac two a b := first [apply put_line; [|exists [str a; str b]] | apply put_line0; exists [str a; str b]];
  try (split; [discriminate|]; split; [constructor; [apply field_str; reflexivity|constructor; [apply field_str; reflexivity|constructor]]|reflexivity]).
Ltac okfs := repeat match goal with
  | |- okf2 (put _ (str "NDN truncated packet, length ")) => two "NDN truncated packet"%string "length "%string
  | |- okf2 (put _ (str "Truncated Ethernet frame, length ")) => two "Truncated Ethernet frame"%string "length "%string
  | |- okf2 (put _ (str "Truncated LINUX_SLL frame, length ")) => two "Truncated LINUX_SLL frame"%string "length "%string
  | |- okf2 (put _ (str "Truncated PPP frame, length ")) => two "Truncated PPP frame"%string "length "%string
  | |- okf2 (put _ (str " truncated header, length ")) => apply (put_len _ (str " truncated header") (str "length ")); [|nc|apply field_str; reflexivity]
  | |- okf2 (put _ (str "truncated header, length ")) => apply (put_len _ (str "truncated header") (str "length ")); [|nc|apply field_str; reflexivity]
  | |- okf2 (put (put _ (str " truncated packet, ")) _) => apply (put_sep _ (str " truncated packet")); [|nc|apply field_dec]
  | |- okf2 (put (put _ (str "truncated packet, ")) _) => apply (put_sep _ (str "truncated packet")); [|nc|apply field_dec]
  | |- okf2 (put (put _ (str " truncated header, ")) _) => apply (put_sep _ (str " truncated header")); [|nc|apply field_dec]
  | |- okf2 (put (put _ (str "truncated payload, ")) _) => apply (put_sep _ (str "truncated payload")); [|nc|apply field_dec]
  | |- okf (addDelimiter _) => apply okf_add
  | |- okf2 (put (put ?o ?v) ?w) => apply put_more; [|nc]
  | |- okf2 (put ?o ?v) => apply put_first; [|apply field_str; reflexivity]
  | |- okf (put _ _) => apply okf2_okf
  | |- okf ?o => assumption
  end.
Ltac psts := repeat match goal with
  | |- post (if ?b then _ else _) => apply (post_if b)
  | |- post (bind ?x _) => apply (post_bind _ x); intros ?
  | |- post (Fine (_, true)) => apply post_Fine; okfs
  | |- post (Fine (_, false)) => apply post_false
  end.

Lemma net_post out nack t w : okf out ->
  (forall x, nack = Some (inl x) \/ nack = Some (inr x) -> ncomma x) ->
  post (Fine (printNet E O out nack t w)).
Proof.
  intros Ho Hn. destruct HE as (_ & _ & H1 & H2 & H3 & _). unfold printNet.
  destruct (t =? TInterest)%N.
  - destruct (e_interest E w) as [what|[n txt]] eqn:Ei.
    + pose proof (H1 _ _ Ei : ncomma what). psts.
    + pose proof (H2 _ _ _ Ei : ncomma txt). destruct (negb (matchesFilter E O n)); psts.
      destruct nack as [[what|reason]|]; psts.
      * pose proof (Hn what (or_introl eq_refl)). okfs.
      * pose proof (Hn reason (or_intror eq_refl)). okfs.
  - destruct (t =? TDataPacket)%N; [|psts].
    destruct (e_data E w) as [what|n] eqn:Ei.
    + pose proof (H3 _ _ Ei : ncomma what). psts.
    + destruct (negb (matchesFilter E O n)); psts.
Qed.
Lemma ndn_post out pkt len : okf out -> post (printNdn E O cap out pkt len).
Proof.
  intros Ho. unfold printNdn. psts. destruct a as [[t w]|]; psts.
  - destruct (e_lp E w) as [m|i c [fr|] nk] eqn:El; psts.
    + destruct HE as (H & _). pose proof (H _ _ El : ncomma m). psts. okfs.
    + destruct (first_block fr) as [[]|]; psts. apply net_post; [okfs|]. intros x [->| ->]; destruct HE as (_ & H & _); apply (H w i c (Some fr) x); auto.
  - apply net_post; [okfs|]. intros x [X|X]; discriminate.
Qed.
Lemma udp_post out pkt len : okf out -> post (printUdp E O cap out pkt len).
Proof. intros Ho. unfold printUdp. psts. apply ndn_post. okfs. Qed.
Lemma tcp_post out pkt len : okf out -> post (printTcp E O cap out pkt len).
Proof. intros Ho. unfold printTcp. psts. apply ndn_post. okfs. Qed.
Lemma proto_post out pkt len p : okf out -> post (dispatchByIpProto E O cap out pkt len p).
Proof. intros Ho. unfold dispatchByIpProto. psts; [apply tcp_post|apply udp_post]; okfs. Qed.
Lemma ip4_post out pkt len : okf out -> post (printIp4 E O cap out pkt len).
Proof. intros Ho. unfold printIp4. psts. apply proto_post. okfs. Qed.
Lemma ip6_post out pkt len : okf out -> post (printIp6 E O cap out pkt len).
Proof. intros Ho. unfold printIp6. psts. apply proto_post. okfs. Qed.
Lemma etype_post out pkt len t : okf out -> post (dispatchByEtherType E O cap out pkt len t).
Proof. intros Ho. unfold dispatchByEtherType. psts; [apply ip4_post|apply ip6_post|apply ndn_post]; okfs. Qed.
Lemma pppproto_post out pkt len : okf out -> post (printPppProto E O cap out pkt len).
Proof. intros Ho. unfold printPppProto. psts. destruct a0 as [proto [p l]]. psts. apply ndn_post. okfs. Qed.
Lemma ppp_post out pkt len : out = fmt0 -> post (printPpp E O cap out pkt len).
Proof. intros Ho. assert (okf out) by now left. subst out. unfold printPpp. psts; apply pppproto_post; okfs. Qed.

Lemma packet_line len sec usec line : printPacket E O cap len sec usec = Fine (Some line) ->
  line_of_fields line \/ (o_timestamp O = true /\ exists l, line = printTimestamp sec usec ++ l /\ line_of_fields l).
Proof.
  assert (One : forall t, field t -> line_of_fields t).
  { intros t Ht. exists [t]. split; [discriminate|]. split; [constructor; [exact Ht|constructor]|reflexivity]. }
  unfold printPacket. destruct (length cap =? 0).
  { intros X; inversion X. left. apply One, field_str. reflexivity. }
  destruct (len =? 0).
  { intros X; inversion X. left. apply One, field_str. reflexivity. }
  destruct (len <? length cap).
  { intros X; inversion X. left. apply One. split; [discriminate|].
    change (ncomma (str "[Invalid header: len(" ++ dec len ++ str ") < caplen(" ++ dec (length cap) ++ str ")]")).
    do 4 (apply nc_app; [nc|]). nc. }
  assert (P : post (match o_link O with
         | DltEther => printEther E O cap fmt0 0 len
         | DltSll => printLinuxSll E O cap fmt0 0 len
         | DltPpp => printPpp E O cap fmt0 0 len
         end)).
  { assert (Ho : okf fmt0) by now left.
    destruct (o_link O); [unfold printEther; psts; now apply etype_post|unfold printLinuxSll; psts; now apply etype_post|now apply ppp_post; reflexivity]. }
  destruct (match o_link O with
         | DltEther => printEther E O cap fmt0 0 len
         | DltSll => printLinuxSll E O cap fmt0 0 len
         | DltPpp => printPpp E O cap fmt0 0 len
         end) as [[o [|]]| |]; cbn [bind fst snd]; try discriminate.
  intros X; inversion X. destruct (P o eq_refl) as (_ & _ & Hl).
  destruct (o_timestamp O); [right; eauto|left; exact Hl].
Qed.
End Format.

(** * In the form of the properties *)
Lemma packet_in_bounds E O cap sec usec : printPacket E O cap (length cap) sec usec <> OutOfBounds.
Proof. destruct (printPacket_fine E O cap sec usec) as [x ->]. discriminate. Qed.
Lemma decapsulation E link ts b n fields sec usec : captured E link b n fields ->
  printPacket E (DumpOpts link None ts) b (length b) sec usec = Fine (Some (expected_line ts sec usec fields)).
Proof. intros H. exact (packet_good E (DumpOpts link None ts) b n fields sec usec H). Qed.
Lemma filtered E link ts f b n fields sec usec : captured E link b n fields ->
  printPacket E (DumpOpts link (Some f) ts) b (length b) sec usec =
    Fine (if f (e_uri E n) then Some (expected_line ts sec usec fields) else None).
Proof. intros H. exact (packet_good E (DumpOpts link (Some f) ts) b n fields sec usec H). Qed.
