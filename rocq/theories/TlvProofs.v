From Verif Require Import Base TlvModel.
Open Scope N_scope.

(** * Big-endian numbers *)
Lemma be_length k n : length (be k n) = k.
Proof. revert n. induction k as [|k IH]; intros n; cbn; [reflexivity|]. rewrite app_length, IH. cbn. lia. Qed.

Lemma of_be_app a b : of_be (a ++ [b]) = of_be a * 256 + b.
Proof. unfold of_be. now rewrite fold_left_app. Qed.

Lemma of_be_be k n : n < 256 ^ N.of_nat k -> of_be (be k n) = n.
Proof.
  revert n. induction k as [|k IH]; intros n H.
  - cbn in H. assert (n = 0) by lia. subst. reflexivity.
  - cbn [be]. rewrite of_be_app, IH.
    + rewrite (N.div_mod n 256) at 3; lia.
    + apply N.div_lt_upper_bound; [lia|]. rewrite Nat2N.inj_succ, N.pow_succ_r' in H. exact H.
Qed.

Lemma be_bytes k n : Forall is_byte (be k n).
Proof.
  revert n. induction k as [|k IH]; intros n; cbn; [constructor|].
  apply Forall_app. split; [apply IH|]. constructor; [|constructor]. unfold is_byte. apply N.mod_lt. lia.
Qed.

Lemma of_be_lt l : Forall is_byte l -> of_be l < 256 ^ N.of_nat (length l).
Proof.
  induction l as [|x l IH] using rev_ind; intros H; [cbn; lia|].
  apply Forall_app in H. destruct H as [H1 H2]. inversion_clear H2. specialize (IH H1).
  rewrite of_be_app, app_length. cbn [length]. rewrite Nat.add_1_r, Nat2N.inj_succ, N.pow_succ_r'.
  unfold is_byte in *. lia.
Qed.

Lemma be_of_be l : Forall is_byte l -> be (length l) (of_be l) = l.
Proof.
  induction l as [|x l IH] using rev_ind; intros H; [reflexivity|].
  apply Forall_app in H. destruct H as [H1 H2]. inversion_clear H2.
  rewrite app_length, Nat.add_1_r. cbn [be]. rewrite of_be_app.
  unfold is_byte in *. rewrite N.div_add_l, (N.div_small x 256), N.add_0_r, IH by (auto; lia).
  f_equal. f_equal. rewrite N.add_comm, N.mod_add by lia. now apply N.mod_small.
Qed.

Lemma pow256_1 : 256 ^ N.of_nat 1 = 256. Proof. reflexivity. Qed.
Lemma pow256_2 : 256 ^ N.of_nat 2 = 65536. Proof. reflexivity. Qed.
Lemma pow256_4 : 256 ^ N.of_nat 4 = 4294967296. Proof. reflexivity. Qed.
Lemma pow256_8 : 256 ^ N.of_nat 8 = 18446744073709551616. Proof. reflexivity. Qed.
Global Opaque be.

Definition u64 (n : N) : Prop := n < 18446744073709551616.

(** * Variable-size numbers *)
Lemma take_app k a l : length a = k -> take_n k (a ++ l) = Some (a, l).
Proof.
  intros <-. unfold take_n. rewrite app_length.
  destruct (Nat.leb_spec (length a) (length a + length l)); [|lia].
  now rewrite firstn_app, Nat.sub_diag, firstn_all, app_nil_r, skipn_app, skipn_all, Nat.sub_diag.
Qed.
Lemma take_some k l a b : take_n k l = Some (a, b) -> l = a ++ b /\ length a = k.
Proof.
  unfold take_n. destruct (Nat.leb_spec k (length l)); intros [= <- <-].
  split; [symmetry; apply firstn_skipn|]. apply firstn_length_le. assumption.
Qed.

Lemma read_var_number n l : u64 n -> read_var (var_number n ++ l) = Some (n, l).
Proof.
  unfold u64. intros H. unfold var_number, read_var.
  destruct (N.ltb_spec n 253) as [H1|H1].
  { cbn [app]. destruct (N.ltb_spec n 253); [reflexivity|lia]. }
  destruct (N.ltb_spec n 65536) as [H2|H2].
  { cbn [app]. change (253 <? 253) with false. change (253 =? 253) with true. cbn match.
    rewrite take_app by apply be_length. rewrite of_be_be by (rewrite pow256_2; lia).
    destruct (N.ltb_spec n 253); [lia|reflexivity]. }
  destruct (N.ltb_spec n 4294967296) as [H3|H3]; cbn [app].
  { change (254 <? 253) with false. change (254 =? 253) with false. change (254 =? 254) with true. cbn match.
    rewrite take_app by apply be_length. rewrite of_be_be by (rewrite pow256_4; lia).
    destruct (N.ltb_spec n 65536); [lia|reflexivity]. }
  change (255 <? 253) with false. change (255 =? 253) with false. change (255 =? 254) with false. cbn match.
  rewrite take_app by apply be_length. rewrite of_be_be by (rewrite pow256_8; lia).
  destruct (N.ltb_spec n 4294967296); [lia|reflexivity].
Qed.

(** reading is only possible for the one encoding *)
Lemma read_var_inv l n rest : Forall is_byte l -> read_var l = Some (n, rest) -> l = var_number n ++ rest /\ u64 n.
Proof.
  intros HB. unfold read_var. destruct l as [|b l]; [discriminate|]. inversion_clear HB as [|? ? Hb HB'].
  unfold is_byte in Hb. unfold u64.
  destruct (N.ltb_spec b 253) as [H1|H1].
  { intros [= <- <-]. unfold var_number. destruct (N.ltb_spec b 253); [|lia]. split; [reflexivity|lia]. }
  assert (Htake : forall k v l2, take_n k l = Some (v, l2) -> l = v ++ l2 /\ length v = k /\ Forall is_byte v /\ of_be v < 256 ^ N.of_nat k).
  { intros k v l2 E. apply take_some in E. destruct E as [-> <-]. apply Forall_app in HB'.
    repeat split; try tauto. apply of_be_lt. tauto. }
  destruct (N.eqb_spec b 253) as [->|H2].
  { destruct (take_n 2 l) as [[v l2]|] eqn:E; [|discriminate]. destruct (N.ltb_spec (of_be v) 253) as [H|H]; [discriminate|].
    intros [= <- <-]. apply Htake in E. destruct E as (-> & Hl & Hv & Hlt). rewrite pow256_2 in Hlt.
    split; [|lia]. unfold var_number. destruct (N.ltb_spec (of_be v) 253); [lia|]. destruct (N.ltb_spec (of_be v) 65536); [|lia].
    rewrite <- Hl, be_of_be by exact Hv. reflexivity. }
  destruct (N.eqb_spec b 254) as [->|H3].
  { destruct (take_n 4 l) as [[v l2]|] eqn:E; [|discriminate]. destruct (N.ltb_spec (of_be v) 65536) as [H|H]; [discriminate|].
    intros [= <- <-]. apply Htake in E. destruct E as (-> & Hl & Hv & Hlt). rewrite pow256_4 in Hlt.
    split; [|lia]. unfold var_number. destruct (N.ltb_spec (of_be v) 253); [lia|]. destruct (N.ltb_spec (of_be v) 65536); [lia|].
    destruct (N.ltb_spec (of_be v) 4294967296); [|lia]. rewrite <- Hl, be_of_be by exact Hv. reflexivity. }
  assert (b = 255) by lia. subst b.
  destruct (take_n 8 l) as [[v l2]|] eqn:E; [|discriminate]. destruct (N.ltb_spec (of_be v) 4294967296) as [H|H]; [discriminate|].
  intros [= <- <-]. apply Htake in E. destruct E as (-> & Hl & Hv & Hlt). rewrite pow256_8 in Hlt.
  split; [|lia]. unfold var_number. destruct (N.ltb_spec (of_be v) 253); [lia|]. destruct (N.ltb_spec (of_be v) 65536); [lia|].
  destruct (N.ltb_spec (of_be v) 4294967296); [lia|]. rewrite <- Hl, be_of_be by exact Hv. reflexivity.
Qed.

Lemma var_number_nonempty n : (1 <= length (var_number n))%nat.
Proof.
  unfold var_number. destruct (n <? 253); [cbn; lia|]. destruct (n <? 65536); [cbn; lia|].
  destruct (n <? 4294967296); cbn; lia.
Qed.
Lemma var_number_bytes n : u64 n -> Forall is_byte (var_number n).
Proof.
  intros H. unfold var_number, is_byte.
  destruct (N.ltb_spec n 253); [constructor; [lia|constructor]|].
  destruct (n <? 65536); [constructor; [lia|apply be_bytes]|].
  destruct (n <? 4294967296); constructor; try lia; apply be_bytes.
Qed.

(** * Elements *)
Definition type_ok (t : N) : Prop := 0 < t < 4294967296.
(** an element that can be encoded *)
Definition elem_ok (t : N) (v : list N) : Prop := type_ok t /\ u64 (N.of_nat (length v)).

Lemma read_tlv_tlv t v l : elem_ok t v -> read_tlv (tlv t v ++ l) = Some (t, v, l).
Proof.
  intros [Ht Hv]. unfold type_ok in Ht. unfold read_tlv, read_type, tlv.
  rewrite <- app_assoc, read_var_number by (unfold u64; lia).
  destruct (N.eqb_spec t 0); [lia|]. destruct (N.leb_spec 4294967296 t); [lia|]. cbn [orb].
  rewrite <- app_assoc, read_var_number by exact Hv.
  rewrite app_length. destruct (N.leb_spec (N.of_nat (length v)) (N.of_nat (length v + length l))); [|lia].
  rewrite Nat2N.id, firstn_app, Nat.sub_diag, firstn_all, app_nil_r, skipn_app, skipn_all, Nat.sub_diag. reflexivity.
Qed.

Lemma read_tlv_inv l t v rest : Forall is_byte l -> read_tlv l = Some (t, v, rest) ->
  l = tlv t v ++ rest /\ elem_ok t v.
Proof.
  intros HB. unfold read_tlv, read_type.
  destruct (read_var l) as [[t' l1]|] eqn:E1; [|discriminate].
  destruct ((t' =? 0) || (4294967296 <=? t')) eqn:Et; [discriminate|].
  destruct (read_var l1) as [[n l2]|] eqn:E2; [|discriminate].
  destruct (N.leb_spec n (N.of_nat (length l2))) as [Hn|]; [|discriminate]. intros [= <- <- <-].
  apply read_var_inv in E1; [|exact HB]. destruct E1 as [-> Hu1]. apply Forall_app in HB.
  apply read_var_inv in E2; [|tauto]. destruct E2 as [-> Hu2].
  assert (Hlen : length (firstn (N.to_nat n) l2) = N.to_nat n) by (apply firstn_length_le; lia).
  unfold tlv, elem_ok, type_ok. rewrite Hlen, N2Nat.id. split; [|split; [lia|exact Hu2]].
  rewrite <- !app_assoc, firstn_skipn. reflexivity.
Qed.

Lemma tlv_nonempty t v : (1 <= length (tlv t v))%nat.
Proof. unfold tlv. rewrite app_length. pose proof (var_number_nonempty t). lia. Qed.

Definition encode_all (es : list (N * list N)) : list N := flat_map (fun e => tlv (fst e) (snd e)) es.

Lemma read_all_encode es fuel : Forall (fun e => elem_ok (fst e) (snd e)) es ->
  (length (encode_all es) <= fuel)%nat -> read_all fuel (encode_all es) = Some es.
Proof.
  intros H. revert fuel. induction H as [|[t v] es He Hes IH]; intros fuel Hf; [destruct fuel; reflexivity|].
  cbn [encode_all flat_map fst snd] in *. fold (encode_all es) in *.
  pose proof (tlv_nonempty t v) as Hne. rewrite app_length in Hf.
  destruct (tlv t v ++ encode_all es) as [|b l] eqn:E.
  { apply (f_equal (@length _)) in E. rewrite app_length in E. cbn in E. lia. }
  destruct fuel as [|fuel]; [lia|]. cbn [read_all]. rewrite <- E, read_tlv_tlv by exact He.
  rewrite IH by lia. reflexivity.
Qed.

Lemma parse_encode es : Forall (fun e => elem_ok (fst e) (snd e)) es -> parse_value (encode_all es) = Some es.
Proof. intros H. unfold parse_value. now apply read_all_encode. Qed.

Lemma read_all_inv fuel : forall l es, Forall is_byte l -> read_all fuel l = Some es ->
  l = encode_all es /\ Forall (fun e => elem_ok (fst e) (snd e)) es.
Proof.
  induction fuel as [|fuel IH]; intros l es HB.
  - destruct l; cbn; [|discriminate]. intros [= <-]. split; [reflexivity|constructor].
  - destruct l as [|b l]; cbn [read_all].
    { intros [= <-]. split; [reflexivity|constructor]. }
    destruct (read_tlv (b :: l)) as [[[t v] rest]|] eqn:E; [|discriminate].
    destruct (read_all fuel rest) as [es'|] eqn:E2; [|discriminate]. intros [= <-].
    apply read_tlv_inv in E; [|exact HB]. destruct E as [E He]. rewrite E in HB. apply Forall_app in HB.
    apply IH in E2; [|tauto]. destruct E2 as [-> Hes]. split; [exact E|]. constructor; assumption.
Qed.

(** * Numbers in components *)
Lemma nni_ok n : u64 n -> nni_size (length (nni n)) = true /\ of_be (nni n) = n.
Proof.
  unfold u64. intros H. unfold nni.
  destruct (N.ltb_spec n 256); [|destruct (N.ltb_spec n 65536); [|destruct (N.ltb_spec n 4294967296)]].
  - rewrite be_length, of_be_be by (rewrite pow256_1; lia). auto.
  - rewrite be_length, of_be_be by (rewrite pow256_2; lia). auto.
  - rewrite be_length, of_be_be by (rewrite pow256_4; lia). auto.
  - rewrite be_length, of_be_be by (rewrite pow256_8; lia). auto.
Qed.
Lemma nni_bytes n : Forall is_byte (nni n).
Proof. unfold nni. destruct (n <? 256); [|destruct (n <? 65536); [|destruct (n <? 4294967296)]]; apply be_bytes. Qed.
Lemma nni_length n : (length (nni n) <= 8)%nat.
Proof. unfold nni. destruct (n <? 256); [|destruct (n <? 65536); [|destruct (n <? 4294967296)]]; rewrite be_length; lia. Qed.

Lemma number_roundtrip typ marker cv n : u64 n -> typ <> TGeneric ->
  number_of typ marker (number_comp typ marker cv n) = Some n.
Proof.
  intros H Ht. destruct (nni_ok n H) as [H1 H2]. unfold number_of. destruct cv; cbn [number_comp c_type c_value].
  - now rewrite N.eqb_refl, H1, H2.
  - destruct (N.eqb_spec TGeneric typ); [congruence|]. cbn [andb]. now rewrite !N.eqb_refl, H1, H2.
Qed.

(** * Equality tests *)
Lemma bytes_eqb_spec a b : bytes_eqb a b = true <-> a = b.
Proof.
  revert b. induction a as [|x a IH]; intros [|y b]; cbn; try (split; congruence).
  rewrite andb_true_iff, N.eqb_eq, IH. split; [intros [-> ->]; reflexivity|intros [= -> ->]; auto].
Qed.
Lemma comp_eqb_spec a b : comp_eqb a b = true <-> a = b.
Proof.
  destruct a, b. unfold comp_eqb. cbn. rewrite andb_true_iff, N.eqb_eq, bytes_eqb_spec.
  split; [intros [-> ->]; reflexivity|intros [= -> ->]; auto].
Qed.
Lemma name_eqb_spec a b : name_eqb a b = true <-> a = b.
Proof.
  revert b. induction a as [|x a IH]; intros [|y b]; cbn; try (split; congruence).
  rewrite andb_true_iff, comp_eqb_spec, IH. split; [intros [-> ->]; reflexivity|intros [= -> ->]; auto].
Qed.
Lemma is_prefix_of_spec a b : is_prefix_of a b = true <-> exists c, b = a ++ c.
Proof.
  revert b. induction a as [|x a IH]; intros b; cbn.
  - split; [eauto|auto].
  - destruct b as [|y b]; [split; [discriminate|intros (c & H); discriminate]|].
    rewrite andb_true_iff, comp_eqb_spec, IH. split.
    + intros [-> (c & ->)]. eauto.
    + intros (c & [= -> ->]). eauto.
Qed.

(** * Names *)
Definition comp_ok (c : component) : Prop := elem_ok (c_type c) (c_value c).
Definition name_ok (n : name) : Prop :=
  Forall comp_ok n /\ u64 (N.of_nat (length (flat_map (fun c => tlv (c_type c) (c_value c)) n))).

Lemma decode_encode_name n : name_ok n -> decode_name (encode_name n) = Some n.
Proof.
  intros [H1 H2]. unfold decode_name, encode_name.
  rewrite <- (app_nil_r (tlv TName _)), read_tlv_tlv by (split; [unfold type_ok, TName; lia|exact H2]).
  change (TName =? TName) with true. cbn match.
  assert (E : flat_map (fun c => tlv (c_type c) (c_value c)) n = encode_all (map (fun c => (c_type c, c_value c)) n)).
  { clear. unfold encode_all. induction n as [|c n IH]; cbn; [reflexivity|]. now rewrite IH. }
  rewrite E, parse_encode.
  - rewrite map_map. f_equal. rewrite <- (map_id n) at 2. apply map_ext. intros []. reflexivity.
  - apply Forall_map. exact H1.
Qed.

Lemma last_comp_app n c : last_comp (n ++ [c]) = Some c.
Proof. unfold last_comp. now rewrite rev_unit. Qed.
Lemma drop_last_app n c : drop_last (n ++ [c]) = n.
Proof. unfold drop_last. apply removelast_last. Qed.
Lemma last_comp_some n c : last_comp n = Some c -> n = drop_last n ++ [c].
Proof.
  destruct n as [|x n] using rev_ind; [discriminate|]. rewrite last_comp_app, drop_last_app. congruence.
Qed.
