(** Lemmas about the dissector, continued: the input can be recovered from the output. *)
From Verif Require Import Base TlvModel TlvProofs PingModel PingProofs DumpModel DumpSpec DumpProofs2 DissectModel DissectSpec DissectProofs.
From Coq Require Import String List.
Import ListNotations.
Local Open Scope N_scope.
Local Open Scope list_scope.

Notation lab := type_label.
Notation TL := (tree_lines lab escape).
Notation KL := (kids lab escape).

(** * Texts *)
Lemma split_at (P : N -> Prop) a b : forall c d x y, Forall P a -> Forall P b -> ~ P c -> ~ P d ->
  a ++ c :: x = b ++ d :: y -> a = b /\ c :: x = d :: y.
Proof.
  revert b. induction a as [|p a IH]; intros [|q b] c d x y Ha Hb Hc Hd E.
  - auto.
  - inversion Hb; subst. cbn in E. inversion E; subst. contradiction.
  - inversion Ha; subst. cbn in E. inversion E; subst. contradiction.
  - inversion Ha; inversion Hb; subst. cbn in E. inversion E; subst. destruct (IH b c d x y) as [-> ->]; auto.
Qed.

Lemma caption_eq t n x t' n' x' : type_ok t -> type_ok t' -> u64 (N.of_nat n) -> u64 (N.of_nat n') ->
  caption lab t n ++ x = caption lab t' n' ++ x' -> t = t' /\ n = n' /\ x = x'.
Proof.
  intros Ht Ht' Hn Hn' E. unfold caption in E. rewrite <- !app_assoc in E.
  assert (ND : forall c, c = 32 \/ c = 41 -> ~ digit c) by (unfold digit; intros c [->| ->]; lia).
  apply (split_at digit) in E; [|apply to_string_digits|apply to_string_digits|apply ND; auto|apply ND; auto].
  destruct E as [E1 E]. apply to_string_inj in E1; [|unfold type_ok, u64 in *; lia|unfold type_ok, u64 in *; lia]. subst t'.
  apply (app_inv_head (str " (")) in E. apply app_inv_head in E. apply (app_inv_head (str ") (size: ")) in E.
  apply (split_at digit) in E; [|apply to_string_digits|apply to_string_digits|apply ND; auto|apply ND; auto].
  destruct E as [E1 E]. apply to_string_inj in E1; [|exact Hn|exact Hn']. apply Nat2N.inj in E1.
  apply (app_inv_head (str ")")) in E. auto.
Qed.

Lemma hex_digit_inj a b : a < 16 -> b < 16 -> hex_digit a = hex_digit b -> a = b.
Proof. unfold hex_digit. intros Ha Hb. destruct (N.ltb_spec a 10), (N.ltb_spec b 10); lia. Qed.
Lemma unreserved_not_percent c : unreserved c = true -> c <> 37.
Proof. intros H ->. discriminate. Qed.
Lemma escape_inj v : forall v', Forall is_byte v -> Forall is_byte v' -> escape v = escape v' -> v = v'.
Proof.
  induction v as [|c v IH]; intros [|c' v'] H H' E.
  - reflexivity.
  - cbn in E. destruct (unreserved c'); discriminate.
  - cbn in E. destruct (unreserved c); discriminate.
  - inversion H as [|? ? Hc Hv]; inversion H' as [|? ? Hc' Hv']; subst. unfold escape in E. cbn [flat_map] in E.
    fold (escape v) (escape v') in E. unfold is_byte in *.
    destruct (unreserved c) eqn:Ec, (unreserved c') eqn:Ec'; cbn [app] in E.
    + injection E as E1 E2. f_equal; auto.
    + injection E as E1 _. elim (unreserved_not_percent c Ec E1).
    + injection E as E1 _. elim (unreserved_not_percent c' Ec'); auto.
    + injection E as E1 E2 E3. assert (c / 16 < 16) by (apply N.div_lt_upper_bound; lia). assert (c' / 16 < 16) by (apply N.div_lt_upper_bound; lia).
      assert (c mod 16 < 16) by (apply N.mod_lt; lia). assert (c' mod 16 < 16) by (apply N.mod_lt; lia).
      apply hex_digit_inj in E1; [|assumption|assumption]. apply hex_digit_inj in E2; [|assumption|assumption].
      f_equal; [|auto]. rewrite (N.div_mod c 16), (N.div_mod c' 16) by lia. congruence.
Qed.

(** * Lines *)
Lemma lines_cons x : exists l ls, TL x = l :: ls.
Proof. destruct x; [eexists; eexists; reflexivity|rewrite lines_branch; eauto]. Qed.

Lemma map_split (V : text) A : forall B X Y,
  (forall l ls, X = l :: ls -> forall z, l <> V ++ z) -> (forall l ls, Y = l :: ls -> forall z, l <> V ++ z) ->
  map (app V) A ++ X = map (app V) B ++ Y -> A = B /\ X = Y.
Proof.
  induction A as [|a A IH]; intros [|b B] X Y HX HY E; cbn [map app] in E.
  - auto.
  - elim (HX _ _ E b eq_refl).
  - elim (HY _ _ (eq_sym E) a eq_refl).
  - inversion E as [[E1 E2]]. apply app_inv_head in E1. destruct (IH B X Y HX HY E2) as [-> ->]. subst. auto.
Qed.

Lemma kids_first c cs l ls : KL (c :: cs) = l :: ls -> forall z, l <> VERT ++ z.
Proof.
  intros E z Ez. destruct (lines_cons c) as (l0 & ls0 & El). cbn [kids] in E. rewrite El in E.
  destruct cs; cbn [hang app] in E; inversion E; subst; discriminate.
Qed.

Lemma kids_inj cs : Forall (fun x => tree_ok x -> forall y, tree_ok y -> TL x = TL y -> x = y) cs ->
  forall cs', Forall tree_ok cs -> Forall tree_ok cs' -> KL cs = KL cs' -> cs = cs'.
Proof.
  induction 1 as [|c cs Hc Hcs IH]; intros [|c' cs'] Hok Hok' E.
  - reflexivity.
  - exfalso. destruct (lines_cons c') as (l0 & ls0 & El). cbn [kids] in E. rewrite El in E. destruct cs'; discriminate.
  - exfalso. destruct (lines_cons c) as (l0 & ls0 & El). cbn [kids] in E. rewrite El in E. destruct cs; discriminate.
  - destruct (lines_cons c) as (l0 & ls0 & El). destruct (lines_cons c') as (l1 & ls1 & El').
    inversion Hok as [|? ? Ok1 Ok2]; inversion Hok' as [|? ? Ok1' Ok2']; subst.
    cbn [kids] in E. rewrite El, El' in E. destruct cs as [|d cs], cs' as [|d' cs'].
    + cbn [hang] in E. inversion E as [[E1 E2]].
      assert (ls0 = ls1). { rewrite <- (app_nil_r (map _ ls0)), <- (app_nil_r (map _ ls1)) in E2. apply (map_split BLANK ls0 ls1 [] []); [discriminate|discriminate|exact E2]. }
      subst. f_equal. apply Hc; auto. congruence.
    + exfalso. cbn [hang app] in E. inversion E.
    + exfalso. cbn [hang app] in E. inversion E.
    + cbn [hang app] in E. inversion E as [[E1 E2]]. clear E.
      destruct (map_split VERT ls0 ls1 (KL (d :: cs)) (KL (d' :: cs'))) as [-> E3];
        [intros; eapply kids_first; eauto|intros; eapply kids_first; eauto|exact E2|]. f_equal; [apply Hc; auto; congruence|]. apply IH; auto.
Qed.

Lemma tree_inj x : tree_ok x -> forall y, tree_ok y -> TL x = TL y -> x = y.
Proof.
  induction x as [t v|t n cs IH] using tree_ind'; intros Hx [t' v'|t' n' cs'] Hy E; inversion Hx; inversion Hy; subst; rewrite ?lines_branch in E.
  - cbn [tree_lines] in E. injection E as E. repeat match goal with H : elem_ok _ _ |- _ => destruct H end. apply caption_eq in E; auto. destruct E as (-> & _ & E).
    f_equal. apply (app_inv_head (str " [[")) in E. apply app_inv_tail in E. now apply escape_inj.
  - exfalso. cbn [tree_lines] in E. injection E as E _. repeat match goal with H : elem_ok _ _ |- _ => destruct H end. rewrite <- (app_nil_r (caption lab t' n')) in E. apply caption_eq in E; auto.
    destruct E as (_ & _ & E). discriminate.
  - exfalso. cbn [tree_lines] in E. injection E as E _. repeat match goal with H : elem_ok _ _ |- _ => destruct H end. rewrite <- (app_nil_r (caption lab t n)) in E. apply caption_eq in E; auto.
    destruct E as (_ & _ & E). discriminate.
  - injection E as E1 E2. rewrite <- (app_nil_r (caption lab t n)), <- (app_nil_r (caption lab t' n')) in E1.
    apply caption_eq in E1; auto. destruct E1 as (-> & -> & _). f_equal. eapply kids_inj; eauto.
Qed.

(** ** Forests *)
Definition indented (l : text) : Prop := exists c l', l = c :: l' /\ (c = 226 \/ c = 32).
Lemma kids_indented cs : Forall indented (KL cs).
Proof.
  assert (A : forall a b ls, (a = TEE \/ a = CORNER) -> (b = VERT \/ b = BLANK) -> Forall indented (hang a b ls)).
  { intros a b [|l ls] Ha Hb; [constructor|]. cbn [hang]. constructor.
    - exists 226. destruct Ha as [->| ->]; cbn; eauto.
    - apply Forall_map, Forall_forall. intros x _. destruct Hb as [->| ->]; [exists 226|exists 32]; cbn; eauto. }
  induction cs as [|c cs IH]; [constructor|]. cbn [kids]. destruct cs; [apply A; auto|]. apply Forall_app. split; [apply A; auto|exact IH].
Qed.
Lemma lines_head x : exists l ls, TL x = l :: ls /\ ~ indented l /\ Forall indented ls.
Proof.
  assert (D : forall t n z, ~ indented (caption lab t n ++ z)).
  { intros t n z (c & l' & E & Hc). unfold caption in E. rewrite <- !app_assoc in E. pose proof (to_string_digits t) as Hd.
    pose proof (to_string_nonempty t). destruct (to_string t) as [|d ds]; [congruence|]. inversion Hd; subst. cbn [app] in E. injection E as E1 _. subst c.
    unfold digit in *. lia. }
  destruct x as [t v|t n cs].
  - cbn [tree_lines]. eexists; eexists. split; [reflexivity|]. split; [apply D|constructor].
  - rewrite lines_branch. exists (caption lab t n), (KL cs). split; [reflexivity|]. split; [|apply kids_indented].
    rewrite <- (app_nil_r (caption lab t n)). apply D.
Qed.
Lemma lines_split (P : text -> Prop) A : forall B X Y, Forall P A -> Forall P B ->
  (forall l ls, X = l :: ls -> ~ P l) -> (forall l ls, Y = l :: ls -> ~ P l) -> A ++ X = B ++ Y -> A = B /\ X = Y.
Proof.
  induction A as [|a A IH]; intros [|b B] X Y HA HB HX HY E; cbn [app] in E.
  - auto.
  - inversion HB; subst. elim (HX _ _ eq_refl). assumption.
  - inversion HA; subst. elim (HY _ _ eq_refl). assumption.
  - inversion HA; inversion HB; subst. inversion E; subst. destruct (IH B X Y) as [-> ->]; auto.
Qed.
Lemma forest_first xs l ls : forest_lines lab escape xs = l :: ls -> ~ indented l.
Proof.
  destruct xs as [|x xs]; [discriminate|]. destruct (lines_head x) as (l0 & ls0 & E & H & _). unfold forest_lines. cbn [flat_map]. rewrite E.
  intros X. inversion X; subst. exact H.
Qed.
Lemma forest_inj xs : forall ys, Forall tree_ok xs -> Forall tree_ok ys ->
  forest_lines lab escape xs = forest_lines lab escape ys -> xs = ys.
Proof.
  induction xs as [|x xs IH]; intros [|y ys] Hx Hy E.
  - reflexivity.
  - exfalso. destruct (lines_cons y) as (l & ls & El). unfold forest_lines in E. cbn [flat_map] in E. rewrite El in E. discriminate.
  - exfalso. destruct (lines_cons x) as (l & ls & El). unfold forest_lines in E. cbn [flat_map] in E. rewrite El in E. discriminate.
  - inversion Hx; inversion Hy; subst. unfold forest_lines in E. cbn [flat_map] in E.
    fold (forest_lines lab escape xs) (forest_lines lab escape ys) in E.
    destruct (lines_head x) as (l & ls & El & _ & Hi). destruct (lines_head y) as (l' & ls' & El' & _ & Hi').
    rewrite El, El' in E. cbn [app] in E. inversion E as [[E1 E2]].
    apply (lines_split indented) in E2; [|exact Hi|exact Hi'|intros; eapply forest_first; eauto|intros; eapply forest_first; eauto].
    destruct E2 as [E2 E3]. subst. f_equal; [|auto]. apply tree_inj; auto. congruence.
Qed.

(** ** No line feeds in lines *)
Definition noLF (l : text) : Prop := Forall (fun c => c <> 10) l.
Definition noLFb (l : text) : bool := forallb (fun c => negb (c =? 10)) l.
Lemma noLFb_ok l : noLFb l = true -> noLF l.
Proof. intros H. apply Forall_forall. intros c Hc. unfold noLFb in H. rewrite forallb_forall in H. specialize (H _ Hc). intros ->. discriminate. Qed.
Lemma noLF_digits l : Forall digit l -> noLF l.
Proof. apply Forall_impl. unfold digit. intros c H. lia. Qed.
Lemma noLF_app a b : noLF a -> noLF b -> noLF (a ++ b). Proof. intros. now apply Forall_app. Qed.
Lemma dict_find_in d t s : dict_find d t = Some s -> In (t, s) d.
Proof. induction d as [|[k v] d IH]; [discriminate|]. cbn. destruct (N.eqb_spec k t); [intros [= ->]; subst; now left|]. intros H. right. auto. Qed.
Lemma label_noLF t : noLF (lab t).
Proof.
  unfold type_label. destruct (dict_find TLV_DICT t) as [s|] eqn:E.
  - apply dict_find_in in E. apply noLFb_ok.
    assert (H : forallb (fun p => noLFb (snd p)) TLV_DICT = true) by (vm_compute; reflexivity).
    rewrite forallb_forall in H. exact (H _ E).
  - destruct (_ || _)%bool; now apply noLFb_ok.
Qed.
Lemma escape_noLF v : noLF (escape v).
Proof.
  assert (Hh : forall d, hex_digit d <> 10) by (intros d; unfold hex_digit; destruct (N.ltb_spec d 10); lia).
  induction v as [|c v IH]; [constructor|]. unfold escape. cbn [flat_map]. apply noLF_app; [|exact IH].
  destruct (unreserved c) eqn:E.
  - apply Forall_cons; [|apply Forall_nil]. intros ->. discriminate.
  - apply Forall_cons; [discriminate|]. apply Forall_cons; [apply Hh|]. apply Forall_cons; [apply Hh|apply Forall_nil].
Qed.
Lemma caption_noLF t n : noLF (caption lab t n).
Proof.
  unfold caption. repeat (apply noLF_app; [first [apply noLF_digits, to_string_digits | apply label_noLF | now apply noLFb_ok]|]).
  now apply noLFb_ok.
Qed.
Lemma hang_noLF a b ls : noLF a -> noLF b -> Forall noLF ls -> Forall noLF (hang a b ls).
Proof.
  intros Ha Hb H. destruct H as [|l ls Hl Hls]; [constructor|]. cbn [hang]. constructor; [now apply noLF_app|].
  apply Forall_map. revert Hls. apply Forall_impl. intros x Hx. now apply noLF_app.
Qed.
Lemma lines_noLF x : Forall noLF (TL x).
Proof.
  induction x as [t v|t n cs IH] using tree_ind'.
  - cbn [tree_lines]. constructor; [|constructor]. apply noLF_app; [apply caption_noLF|]. apply noLF_app; [now apply noLFb_ok|]. apply noLF_app; [apply escape_noLF|now apply noLFb_ok].
  - rewrite lines_branch. constructor; [apply caption_noLF|].
    induction IH as [|c cs Hc Hcs IH]; [constructor|]. cbn [kids]. destruct cs.
    + apply hang_noLF; [now apply noLFb_ok|now apply noLFb_ok|exact Hc].
    + apply Forall_app. split; [apply hang_noLF; [now apply noLFb_ok|now apply noLFb_ok|exact Hc]|exact IH].
Qed.
Lemma forest_noLF xs : Forall noLF (forest_lines lab escape xs).
Proof. induction xs as [|x xs IH]; [constructor|]. apply Forall_app. split; [apply lines_noLF|exact IH]. Qed.
Lemma unlines_inj a : forall b, Forall noLF a -> Forall noLF b -> unlines a = unlines b -> a = b.
Proof.
  induction a as [|l a IH]; intros [|l' b] Ha Hb E.
  - reflexivity.
  - rewrite unlines_cons in E. cbn in E. destruct l'; discriminate.
  - rewrite unlines_cons in E. cbn in E. destruct l; discriminate.
  - rewrite !unlines_cons in E. inversion Ha; inversion Hb; subst. cbn [app] in E.
    apply (split_at (fun c => c <> 10)) in E; auto. destruct E as [-> E]. inversion E. f_equal. auto.
Qed.

Lemma output_inj xs ys : Forall tree_ok xs -> Forall tree_ok ys ->
  unlines (forest_lines lab escape xs) = unlines (forest_lines lab escape ys) -> xs = ys.
Proof. intros Hx Hy E. apply unlines_inj in E; [|apply forest_noLF|apply forest_noLF]. now apply forest_inj. Qed.

(** * From trees to bytes *)
Fixpoint tree_elem (x : tree) : N * list N :=
  match x with
  | Leaf t v => (t, v)
  | Branch t _ cs => (t, flat_map (fun c => tlv (fst (tree_elem c)) (snd (tree_elem c))) cs)
  end.
Lemma tree_elem_branch t n cs : tree_elem (Branch t n cs) = (t, encode_all (map tree_elem cs)).
Proof. cbn [tree_elem]. f_equal. induction cs as [|c cs IH]; [reflexivity|]. cbn. f_equal. exact IH. Qed.
Lemma shown_elem content x : forall e, shown false content e x -> e = tree_elem x.
Proof.
  induction x as [t v|t n cs IH] using tree_ind'; intros e H; inversion H as [t0 v0 Ho|t0 v0 es cs0 Ho Hne Hd Hcs]; subst; [reflexivity|].
  rewrite tree_elem_branch. f_equal. destruct Hd as [[_ Hd]|[[X _]|[X _]]]; [|discriminate|contradiction].
  rewrite Hd. f_equal. clear - IH Hcs. induction Hcs as [|e c es cs He Hes IHes]; [reflexivity|]. inversion IH; subst. cbn [map]. f_equal; auto.
Qed.
Lemma shown_ok keep content x : forall e, shown keep content e x -> elem_ok (fst e) (snd e) -> Forall is_byte (snd e) -> tree_ok x.
Proof.
  induction x as [t v|t n cs IH] using tree_ind'; intros e H Hok HB; inversion H as [t0 v0 Ho|t0 v0 es cs0 Ho Hne Hd Hcs]; subst; cbn [fst snd] in *.
  - now constructor.
  - destruct Hok as [Ht Hl]. constructor; [exact Ht|exact Hl|].
    destruct (divided_inside _ _ _ Hd) as [Hes [r Hv]]. rewrite Hv in HB. apply Forall_app in HB. destruct HB as [HB _]. apply encode_bytes in HB.
    clear - IH Hcs Hes HB. induction Hcs as [|e c es cs He Hcs IHcs]; [constructor|].
    inversion IH; inversion Hes; inversion HB; subst. constructor; eauto.
Qed.
Lemma forest_ok keep content limit es trs : Forall (fits limit) es -> Forall2 (shown keep content) es trs -> Forall tree_ok trs.
Proof.
  intros Hf Hs. induction Hs as [|e x es trs He Hs IH]; [constructor|]. inversion Hf as [|? ? [H1 [H2 _]] Hf']; subst.
  constructor; [eapply shown_ok; eauto|auto].
Qed.
Lemma forest_elem content es trs : Forall2 (shown false content) es trs -> es = map tree_elem trs.
Proof. induction 1 as [|e x es trs He Hs IH]; [reflexivity|]. cbn [map]. f_equal; [eapply shown_elem; eauto|exact IH]. Qed.

Lemma dissect_lossless limit content l1 l2 out b1 b2 : Forall is_byte l1 -> Forall is_byte l2 ->
  dissect false limit content l1 = Some (Dst out b1, None) -> dissect false limit content l2 = Some (Dst out b2, None) -> l1 = l2.
Proof.
  intros HB1 HB2 H1 H2.
  destruct (input_cases limit (length l1) l1 (le_n _) HB1) as (es1 & r1 & -> & Hf1 & Hr1).
  destruct (input_cases limit (length l2) l2 (le_n _) HB2) as (es2 & r2 & -> & Hf2 & Hr2).
  destruct (forest_exists false content limit es1 Hf1) as [x1 Hs1]. destruct (forest_exists false content limit es2 Hf2) as [x2 Hs2].
  rewrite (dissect_prints false content limit es1 x1 r1 Hf1 Hs1 Hr1) in H1. rewrite (dissect_prints false content limit es2 x2 r2 Hf2 Hs2 Hr2) in H2.
  destruct r1; [|discriminate]. destruct r2; [|discriminate]. injection H1 as E1 _. injection H2 as E2 _. rewrite <- E2 in E1.
  apply output_inj in E1; [|exact (forest_ok _ _ _ _ _ Hf1 Hs1)|exact (forest_ok _ _ _ _ _ Hf2 Hs2)]. subst x2.
  rewrite (forest_elem _ _ _ Hs1), (forest_elem _ _ _ Hs2). reflexivity.
Qed.

Lemma dissect_same_trees keep limit content es1 es2 x1 x2 :
  Forall (fits limit) es1 -> Forall (fits limit) es2 -> Forall2 (shown keep content) es1 x1 -> Forall2 (shown keep content) es2 x2 ->
  option_map (fun r => d_out (fst r)) (dissect keep limit content (encode_all es1)) =
  option_map (fun r => d_out (fst r)) (dissect keep limit content (encode_all es2)) -> x1 = x2.
Proof.
  intros Hf1 Hf2 Hs1 Hs2 E.
  rewrite <- (app_nil_r (encode_all es1)), <- (app_nil_r (encode_all es2)) in E.
  rewrite (dissect_prints keep content limit es1 x1 []), (dissect_prints keep content limit es2 x2 []) in E by auto.
  cbn in E. inversion E as [E1]. apply output_inj in E1; [exact E1|exact (forest_ok _ _ _ _ _ Hf1 Hs1)|exact (forest_ok _ _ _ _ _ Hf2 Hs2)].
Qed.

(** * One line for each element *)
Lemma hang_length a b ls : length (hang a b ls) = length ls.
Proof. destruct ls; [reflexivity|]. cbn. now rewrite map_length. Qed.
Lemma lines_length x : length (TL x) = nodes x.
Proof.
  induction x as [t v|t n cs IH] using tree_ind'; [reflexivity|]. rewrite lines_branch. cbn [length nodes]. f_equal.
  induction IH as [|c cs Hc Hcs IH]; [reflexivity|]. cbn [kids]. destruct cs as [|d cs].
  - rewrite hang_length, Hc. lia.
  - rewrite app_length, hang_length, Hc, IH. reflexivity.
Qed.

(** * Names of types (C44) *)
Lemma standard_big t : 600 <= t -> standard_name t = None /\ dict_find TLV_DICT t = None.
Proof.
  intros H. split.
  - unfold standard_name. destruct t as [|p]; [reflexivity|].
    do 10 (destruct p as [p|p|]; try reflexivity; try (exfalso; lia)).
  - assert (A : Forall (fun p => fst p < 600) TLV_DICT) by (repeat constructor).
    induction A as [|[k s] d Hk _ IH]; [reflexivity|]. cbn in Hk |- *. destruct (N.eqb_spec k t); [lia|exact IH].
Qed.
Lemma dict_standard t : dict_find TLV_DICT t = standard_name t.
Proof.
  destruct (N.le_gt_cases 600 t) as [H|H]; [destruct (standard_big t H); congruence|].
  assert (A : forallb (fun n => match dict_find TLV_DICT (N.of_nat n), standard_name (N.of_nat n) with
     | None, None => true | Some a, Some b => bytes_eqb a b | _, _ => false end) (seq 0 600) = true) by (vm_compute; reflexivity).
  rewrite forallb_forall in A. specialize (A (N.to_nat t)). rewrite N2Nat.id in A.
  assert (I : In (N.to_nat t) (seq 0 600)) by (apply in_seq; lia). specialize (A I).
  destruct (dict_find TLV_DICT t), (standard_name t); try discriminate; [|reflexivity]. apply bytes_eqb_spec in A. congruence.
Qed.
Lemma label_cases t :
  (forall s, standard_name t = Some s -> lab t = s) /\
  (standard_name t = None -> application_type t -> lab t = str "UNKNOWN_APP") /\
  (standard_name t = None -> ~ application_type t -> lab t = str "RESERVED").
Proof.
  unfold type_label. rewrite dict_standard. unfold application_type, AppPrivateBlock1, AppPrivateBlock2.
  split; [intros s ->; reflexivity|]. split; intros -> H.
  - assert (E : (((128 <=? t) && (t <=? 252)) || (32767 <=? t))%bool = true) by lia. now rewrite E.
  - assert (E : (((128 <=? t) && (t <=? 252)) || (32767 <=? t))%bool = false) by lia. now rewrite E.
Qed.
Lemma names_distinct t t' s : standard_name t = Some s -> standard_name t' = Some s -> t = t'.
Proof.
  rewrite <- !dict_standard. intros H1 H2. apply dict_find_in in H1. apply dict_find_in in H2.
  assert (A : forallb (fun p => forallb (fun q => negb (bytes_eqb (snd p) (snd q)) || (fst p =? fst q))%bool TLV_DICT) TLV_DICT = true) by (vm_compute; reflexivity).
  rewrite forallb_forall in A. specialize (A _ H1). rewrite forallb_forall in A. specialize (A _ H2). cbn [fst snd] in A.
  assert (bytes_eqb s s = true) by now apply bytes_eqb_spec. rewrite H in A. cbn in A. now apply N.eqb_eq.
Qed.

Lemma block_restores keep content fuel e x : shown keep content e x -> Forall is_byte (snd e) -> (length (snd e) < fuel)%nat ->
  forall s, exists out, printBlock keep content fuel e s = Some (Dst out (d_br s)).
Proof. intros H1 H2 H3 s. rewrite (printBlock_prints keep content fuel e x H1 H2 H3 s). eauto. Qed.
