(** ndnpoke, ndnpeek and ndn-dissect one after the other, as in tools/dissect/README.md. *)
From Verif Require Import Base TlvModel TlvProofs PingModel PeekModel PeekProofs PeekPokeModel PeekPokeSpec PeekPokeProofs DumpModel DissectModel DissectSpec DissectProofs DissectRunModel DissectRunSpec DissectRunProofs.
From Coq Require Import String List Lia.
Import ListNotations.
Local Open Scope N_scope.
Local Open Scope list_scope.

Lemma tlv_bytes t v : elem_ok t v -> Forall is_byte v -> Forall is_byte (tlv t v).
Proof.
  intros [[Ht Ht'] Hl] B. unfold tlv. apply Forall_app. split; [apply var_number_bytes; unfold u64; lia|].
  apply Forall_app. split; [apply var_number_bytes; exact Hl|exact B].
Qed.
Lemma tlv_size t v : (length v <= length (tlv t v))%nat.
Proof. pose proof (tlv_length t v). lia. Qed.

Section Demo.
Variable digest : packet -> component.
Variable sign : packet -> list N * list N.
Hypothesis sign_bytes : forall d, Forall is_byte (fst (sign d)) /\ Forall is_byte (snd (sign d)).

Lemma name_value_flat n : flat_map (fun c => tlv (c_type c) (c_value c)) n = name_value n.
Proof. unfold name_value, encode_all. induction n as [|c n IH]; [reflexivity|]. cbn. rewrite IH. reflexivity. Qed.
Lemma wire_encode d : data_wire sign d = tlv 6 (encode_all (data_elements sign d)).
Proof. reflexivity. Qed.

Lemma encode_all_bytes es : Forall (fun e => elem_ok (fst e) (snd e)) es -> Forall (fun e => Forall is_byte (snd e)) es ->
  Forall is_byte (encode_all es).
Proof.
  intros A B. unfold encode_all. induction es as [|e es IH]; [constructor|].
  inversion A; inversion B; subst. cbn. apply Forall_app. split; [apply tlv_bytes; assumption|apply IH; assumption].
Qed.
Lemma encode_all_in es e : In e es -> (length (snd e) <= length (encode_all es))%nat.
Proof. intros H. pose proof (encode_member es e H). lia. Qed.

Lemma fits_size d : data_fits sign d = true -> N.of_nat (length (data_wire sign d)) <= 8800.
Proof.
  unfold data_fits. generalize (length (data_wire sign d)). intros n H. apply Nat.leb_le in H. lia.
Qed.
Lemma pieces d : octets_name (k_name d) -> Forall is_byte (k_content d) ->
  (forall c, k_fbi d = Some c -> In c (k_name d)) -> data_fits sign d = true ->
  Forall (fun e => elem_ok (fst e) (snd e)) (data_elements sign d) /\
  Forall (fun e => Forall is_byte (snd e)) (data_elements sign d) /\ fits 8800 (6, encode_all (data_elements sign d)).
Proof.
  intros On Oc Of F. apply fits_size in F. rewrite wire_encode in F.
  assert (Lv := tlv_size 6 (encode_all (data_elements sign d))).
  assert (L : (N.of_nat (length (encode_all (data_elements sign d))) <= 8800)) by lia.
  assert (U : forall l : list N, N.of_nat (length l) <= 8800 -> u64 (N.of_nat (length l))) by (intros l H; unfold u64; lia).
  assert (I : forall e, In e (data_elements sign d) -> N.of_nat (length (snd e)) <= 8800).
  { intros e H. apply encode_all_in in H. lia. }
  assert (Cn : Forall (fun e => elem_ok (fst e) (snd e)) (map (fun c => (c_type c, c_value c)) (k_name d)) /\
               Forall (fun e => Forall is_byte (snd e)) (map (fun c => (c_type c, c_value c)) (k_name d))).
  { assert (Hn : N.of_nat (length (name_value (k_name d))) <= 8800).
    { rewrite <- name_value_flat. exact (I _ (or_introl eq_refl)). }
    split; apply Forall_forall; intros e He; pose proof (encode_all_in _ _ He) as Hl; apply in_map_iff in He as (c & <- & Hc);
      destruct (proj1 (Forall_forall _ _) On c Hc) as [T B]; cbn [fst snd] in *.
    - split; [exact T|]. apply U. unfold name_value in Hn. lia.
    - exact B. }
  assert (Ok : Forall (fun e => elem_ok (fst e) (snd e)) (data_elements sign d)).
  { apply Forall_forall. intros e He. split; [|apply U, I, He].
    destruct He as [<-|[<-|[<-|[<-|[<-|[]]]]]]; split; reflexivity. }
  assert (By : Forall (fun e => Forall is_byte (snd e)) (data_elements sign d)).
  { pose proof (sign_bytes d) as [S1 S2].
    repeat constructor; cbn [fst snd]; try assumption.
    - rewrite name_value_flat. apply encode_all_bytes; apply Cn.
    - pose proof (I _ (or_intror (or_introl eq_refl))) as Lm. cbn [snd] in Lm. rewrite app_length in Lm.
      apply Forall_app. split.
      + destruct (0 <? k_fresh d)%Z; [|constructor]. apply tlv_bytes; [|apply nni_bytes].
        split; [split; reflexivity|]. apply U. pose proof (tlv_size TFreshness (nni (Z.to_N (k_fresh d)))). lia.
      + destruct (k_fbi d) as [c|]; [|constructor]. specialize (Of c eq_refl).
        pose proof (tlv_size TFinalBlockId (tlv (c_type c) (c_value c))). pose proof (tlv_size (c_type c) (c_value c)).
        destruct (proj1 (Forall_forall _ _) On c Of) as [T B].
        apply tlv_bytes; [split; [split; reflexivity|apply U; lia]|]. apply tlv_bytes; [split; [exact T|apply U; lia]|exact B]. }
  split; [exact Ok|]. split; [exact By|].
  unfold fits. cbn [fst snd]. split; [split; [split; reflexivity|apply U, L]|]. split; [apply encode_all_bytes; assumption|]. lia.
Qed.

Lemma meta_same o input : (if Z.ltb 0 (k_fresh (poke_data o input)) then tlv TFreshness (nni (Z.to_N (k_fresh (poke_data o input)))) else []) ++
    match k_fbi (poke_data o input) with Some c => tlv TFinalBlockId (tlv (c_type c) (c_value c)) | None => [] end = meta_value o.
Proof.
  unfold meta_value, poke_data. cbn [k_fresh k_fbi]. f_equal. destruct (pp_final o); [|reflexivity].
  unfold last_comp. destruct (rev (pp_name o)); reflexivity.
Qed.

Theorem demo keep what program usage version open_file i po o input es :
  let d := poke_data o input in
  let y := pp_run digest sign i po o input es in
  octets_name (pp_name o) -> Forall is_byte input -> data_fits sign d = true -> pk_payloadOnly po = false ->
  peek_status (pk_result (np_peek y)) = 0%Z ->
  exists xn xm xi,
    shown keep false (7, name_value (pp_name o)) xn /\ shown keep false (20, meta_value o) xm /\
    shown keep false (22, fst (sign d)) xi /\
    dissect_program keep 8800 what program usage version (Stream (concat (pk_out (np_peek y))) false) open_file (plain false) =
    Some (DissectResult (unlines (tree_lines type_label escape
      (Branch 6 (length (encode_all (data_elements sign d))) [xn; xm; Leaf 21 input; xi; Leaf 23 (snd (sign d))]))) [] 0).
Proof.
  intros d y On Oi F P S.
  destruct (peek_prints_input digest sign i po o input es S) as (Out & _). fold d y in Out. rewrite P in Out.
  destruct (pieces d) as (Ok & By & Fi).
  - exact On.
  - exact Oi.
  - intros c Hc. unfold d, poke_data in Hc. cbn in Hc. destruct (pp_final o); [|discriminate].
    unfold last_comp in Hc. destruct (rev (pp_name o)) as [|x r] eqn:R; [discriminate|]. injection Hc as <-.
    apply in_rev. unfold d, poke_data. cbn [k_name]. rewrite R. left. reflexivity.
  - exact F.
  - assert (B : forall k e, nth_error (data_elements sign d) k = Some e -> exists x, shown keep false e x).
    { intros k e H. apply shown_exists. apply nth_error_In in H. exact (proj1 (Forall_forall _ _) By e H). }
    destruct (B 0%nat _ eq_refl) as (xn & Hn). destruct (B 1%nat _ eq_refl) as (xm & Hm). destruct (B 3%nat _ eq_refl) as (xi & Hi).
    exists xn, xm, xi. split; [rewrite name_value_flat in Hn; exact Hn|]. split; [rewrite <- (meta_same o input); exact Hm|]. split; [exact Hi|].
    rewrite Out. cbn [concat]. rewrite app_nil_r, wire_encode.
    apply pipe_packet; [exact Fi|].
    apply Sh_branch with (es := data_elements sign d).
    + intros [H|[H|[H _]]]; discriminate.
    + discriminate.
    + left. split; [exact Ok|reflexivity].
    + constructor; [exact Hn|]. constructor; [exact Hm|].
      constructor; [apply Sh_leaf; left; right; right; split; reflexivity|].
      constructor; [exact Hi|]. constructor; [apply Sh_leaf; left; left; reflexivity|constructor].
Qed.
End Demo.

(** ndnpeek | ndn-dissect for any Data packet *)
Theorem peek_pipe keep limit what program usage version open_file o v x es' :
  pk_payloadOnly o = false -> fits limit (6, v) -> shown keep false (6, v) x ->
  dissect_program keep limit what program usage version (Stream (concat (pk_out (peek_run o (PeData (tlv 6 v) :: es')))) false)
    open_file (plain false) = Some (DissectResult (unlines (tree_lines type_label escape x)) [] 0).
Proof. intros P F S. rewrite peek_prints_packet by exact P. apply pipe_packet; assumption. Qed.
