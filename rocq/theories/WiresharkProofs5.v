(** Proofs about the Wireshark dissector: texts are NDN URIs, items are labelled. *)
From Coq Require Import String.
From Verif Require Import Base BaseFacts TlvModel TlvProofs PingModel PingProofs DumpModel DumpSpec DumpProofs2 WiresharkModel WiresharkSpec
  WiresharkProofs WiresharkProofs2 WiresharkProofs3 WiresharkProofs4.
Open Scope Z_scope.

(** * Texts *)
Lemma unreserved_spec b : unreserved b = true <-> plain_char b.
Proof. unfold unreserved, plain_char. lia. Qed.

Lemma chars_text_ok v : chars_text v (flat_map (fun ch => if unreserved ch then [ch] else str "%" ++ hex2 true ch) v).
Proof.
  induction v as [|b v IH]; [constructor|]. cbn [flat_map]. constructor; [|exact IH].
  destruct (unreserved b) eqn:E.
  - constructor. now apply unreserved_spec.
  - apply ct_other. rewrite <- unreserved_spec. congruence.
Qed.

Lemma periods_spec v : periods v = true <-> Forall (eq 46%N) v.
Proof.
  unfold periods. rewrite negb_true_iff. induction v as [|b v IH]; cbn [existsb]; [split; [constructor|reflexivity]|].
  rewrite orb_false_iff, IH. split.
  - intros [H1 H2]. constructor; [lia|exact H2].
  - intros H. inversion_clear H. split; [lia|assumption].
Qed.
Lemma periods_exists v : periods v = false <-> Exists (fun b => b <> 46%N) v.
Proof.
  unfold periods. rewrite negb_false_iff. rewrite existsb_exists, Exists_exists. split; intros (x & H1 & H2); exists x; split; auto; lia.
Qed.
Lemma flat_periods v : Forall (eq 46%N) v -> flat_map (fun ch => if unreserved ch then [ch] else str "%" ++ hex2 true ch) v = v.
Proof. induction 1 as [|b v <- _ IH]; [reflexivity|]. cbn [flat_map]. rewrite IH. reflexivity. Qed.

Lemma value_text_ok v : value_text v (value_uri v).
Proof.
  unfold value_uri. destruct (periods v) eqn:E.
  - apply periods_spec in E. rewrite flat_periods by exact E. now constructor.
  - apply periods_exists in E. rewrite app_nil_r. constructor; [exact E|apply chars_text_ok].
Qed.
Lemma component_text_ok t v : component_text (Comp t v) (comp_uri t v).
Proof.
  unfold comp_uri. destruct (N.eqb_spec t 1) as [->|H1]; [constructor|]. destruct (N.eqb_spec t 2) as [->|H2]; [constructor|].
  destruct (N.eqb_spec t 8) as [->|H8].
  - cbn [app]. constructor. apply value_text_ok.
  - rewrite <- app_assoc. constructor; auto. apply value_text_ok.
Qed.

Lemma concat_slash_text n : n <> [] -> components_text n (str "/" ++ concat_slash (map (fun c => comp_uri (c_type c) (c_value c)) n)).
Proof.
  induction n as [|c n IH]; [congruence|]. intros _. destruct n as [|d n].
  - cbn [map concat_slash]. rewrite <- (app_nil_r (comp_uri _ _)). constructor; [|constructor]. destruct c. apply component_text_ok.
  - specialize (IH ltac:(discriminate)). change (concat_slash (map (fun c0 => comp_uri (c_type c0) (c_value c0)) (c :: d :: n)))
      with (comp_uri (c_type c) (c_value c) ++ str "/" ++ concat_slash (map (fun c0 => comp_uri (c_type c0) (c_value c0)) (d :: n))).
    constructor; [destruct c; apply component_text_ok|exact IH].
Qed.
Definition name_text (n : name) : text := str "/" ++ concat_slash (map (fun c => comp_uri (c_type c) (c_value c)) n).
Lemma name_uri_ok n : name_uri n (name_text n).
Proof.
  destruct n as [|c n]; [constructor|]. apply nu_name; [discriminate|]. apply concat_slash_text. discriminate.
Qed.

(** ** Different names have different texts *)
Lemma hex_digit_inj u a b : (a < 16)%N -> (b < 16)%N -> hex_digit u a = hex_digit u b -> a = b.
Proof. unfold hex_digit. intros. destruct (N.ltb_spec a 10), (N.ltb_spec b 10), u; lia. Qed.
Lemma hex2_inj u a b : is_byte a -> is_byte b -> hex2 u a = hex2 u b -> a = b.
Proof.
  unfold is_byte, hex2. intros Ha Hb [= H1 H2].
  apply hex_digit_inj in H1; [|apply N.div_lt_upper_bound; lia..]. apply hex_digit_inj in H2; [|apply N.mod_lt; lia..].
  rewrite (N.div_mod a 16), (N.div_mod b 16) by lia. now rewrite H1, H2.
Qed.
Lemma hexes_inj u : forall a b, Forall is_byte a -> Forall is_byte b -> flat_map (hex2 u) a = flat_map (hex2 u) b -> a = b.
Proof.
  induction a as [|x a IH]; intros [|y b] HA HB H; [reflexivity|discriminate..|].
  inversion_clear HA. inversion_clear HB. cbn in H. injection H as K1 K2 K3.
  assert (x = y) by (apply (hex2_inj u); auto; unfold hex2; congruence). subst. f_equal. apply IH; auto.
Qed.

Lemma chars_inj : forall v w t, Forall is_byte v -> Forall is_byte w -> chars_text v t -> chars_text w t -> v = w.
Proof.
  intros v w t HV HW H. revert w HV HW. induction H as [|b bs t ts HC HT IH]; intros w HV HW H2.
  - inversion H2 as [|b bs t ts HC' HT' E]; [reflexivity|]. destruct HC'; discriminate.
  - inversion_clear HV. inversion H2 as [E|b' bs' t' ts' HC' HT' E1 E2]; subst.
    { destruct HC; discriminate. }
    inversion_clear HW.
    destruct HC as [b HP|b HP], HC' as [b' HP'|b' HP']; cbn in E2.
    + injection E2 as -> ->. f_equal. apply IH; auto.
    + exfalso. injection E2 as E2 _. unfold plain_char in HP. lia.
    + exfalso. injection E2 as E2 _. unfold plain_char in HP'. lia.
    + injection E2 as K1 K2 K3. assert (b' = b) by (apply (hex2_inj true); auto; unfold hex2; congruence). subst b'. subst ts'. f_equal. apply IH; auto.
Qed.

(** characters of a value: no '/' and no '=' *)
Definition tame (c : N) : Prop := c <> 47%N /\ c <> 61%N.
Lemma hex_digit_tame u a : (a < 16)%N -> tame (hex_digit u a).
Proof. unfold tame, hex_digit. intros. destruct (N.ltb_spec a 10), u; lia. Qed.
Lemma hex2_tame u b : is_byte b -> Forall tame (hex2 u b).
Proof.
  unfold is_byte. intros H. unfold hex2. repeat constructor; apply hex_digit_tame || (apply hex_digit_tame); try (apply N.div_lt_upper_bound; lia); apply N.mod_lt; lia.
Qed.
Lemma chars_tame v t : Forall is_byte v -> chars_text v t -> Forall tame t.
Proof.
  intros HV H. induction H as [|b bs t ts HC HT IH]; [constructor|]. inversion_clear HV. apply Forall_app. split; [|auto].
  destruct HC as [b HP|b HP].
  - repeat constructor; unfold plain_char in HP; lia.
  - unfold percent. change (str "%") with [37%N]. cbn [app]. constructor; [split; discriminate|now apply hex2_tame].
Qed.
Lemma chars_nonperiod v t : chars_text v t -> Exists (fun b => b <> 46%N) v -> Exists (fun b => b <> 46%N) t.
Proof.
  induction 1 as [|b bs t ts HC HT IH]; intros HE; [inversion HE|].
  apply Exists_app. inversion_clear HE as [? ? Hb|? ? Hbs]; [left|right; auto].
  destruct HC; [now constructor|]. constructor. discriminate.
Qed.
Lemma value_inj v w t : Forall is_byte v -> Forall is_byte w -> value_text v t -> value_text w t -> v = w.
Proof.
  intros HV HW H1 H2. inversion H1 as [v' F1 E1 E1'|v' t' X1 C1 E1 E1']; subst; inversion H2 as [w' F2 E2 E2'|w' t'' X2 C2 E2 E2']; subst.
  - apply app_inv_tail in E2'. congruence.
  - exfalso. pose proof (chars_nonperiod _ _ C2 X2) as X. rewrite Exists_app in X. destruct X as [X|X].
    + apply Exists_exists in X. destruct X as (x & X1 & X3). rewrite Forall_forall in F1. apply F1 in X1. congruence.
    + apply Exists_exists in X. destruct X as (x & X1 & X3). change (str "...") with [46; 46; 46]%N in X1. destruct X1 as [X1|[X1|[X1|[]]]]; congruence.
  - exfalso. pose proof (chars_nonperiod _ _ C1 X1) as X. rewrite Exists_app in X. destruct X as [X|X].
    + apply Exists_exists in X. destruct X as (x & X2 & X3). rewrite Forall_forall in F2. apply F2 in X2. congruence.
    + apply Exists_exists in X. destruct X as (x & X2 & X3). change (str "...") with [46; 46; 46]%N in X2. destruct X2 as [X2|[X2|[X2|[]]]]; congruence.
  - eapply chars_inj; eauto.
Qed.
Lemma value_tame v t : Forall is_byte v -> value_text v t -> Forall tame t.
Proof.
  intros HV H. inversion H as [v' F E E'|v' t' X C E E']; subst.
  - apply Forall_app. split; [|repeat constructor; discriminate]. eapply Forall_impl; [|exact F]. intros a <-. split; discriminate.
  - eapply chars_tame; eauto.
Qed.

(** texts up to a separator *)
Lemma split_sep (s : N) : forall a b x y, Forall (fun c => c <> s) a -> Forall (fun c => c <> s) b ->
  a ++ s :: x = b ++ s :: y -> a = b /\ x = y.
Proof.
  induction a as [|c a IH]; intros [|d b] x y HA HB H; cbn in H.
  - injection H as ->. auto.
  - injection H as <- _. inversion_clear HB. congruence.
  - injection H as -> _. inversion_clear HA. congruence.
  - injection H as -> H. inversion_clear HA. inversion_clear HB. destruct (IH b x y) as [-> ->]; auto.
Qed.
Lemma no_sep (s : N) a b x : Forall (fun c => c <> s) b -> a ++ s :: x <> b.
Proof. intros H E. subst b. apply Forall_app in H. destruct H as [_ H]. inversion_clear H. congruence. Qed.

Lemma tame_eq t : Forall tame t -> Forall (fun c => c <> 61%N) t.
Proof. apply Forall_impl. unfold tame. tauto. Qed.
Lemma tame_sl t : Forall tame t -> Forall (fun c => c <> 47%N) t.
Proof. apply Forall_impl. unfold tame. tauto. Qed.
Lemma digits_tame l : Forall digit l -> Forall tame l.
Proof. apply Forall_impl. unfold digit, tame. intros. lia. Qed.
Lemma hexes_tame u v : Forall is_byte v -> Forall tame (flat_map (hex2 u) v).
Proof. induction 1; cbn [flat_map]; [constructor|]. apply Forall_app. split; [now apply hex2_tame|assumption]. Qed.

(** the part before '=' of each kind of component *)
Inductive kind := KImplicit | KParams | KGeneric | KOther (t : N).
Definition prefix_of (k : kind) : option text :=
  match k with KImplicit => Some (str "sha256digest") | KParams => Some (str "params-sha256") | KGeneric => None | KOther t => Some (to_string t) end.
Definition kind_type (k : kind) : N := match k with KImplicit => 1 | KParams => 2 | KGeneric => 8 | KOther t => t end.

Lemma component_shape c t : (c_type c < 4294967296)%N -> Forall is_byte (c_value c) -> component_text c t -> exists k body,
  c_type c = kind_type k /\ Forall tame body /\
  t = match prefix_of k with Some p => p ++ 61%N :: body | None => body end /\
  match k with
  | KImplicit | KParams => body = flat_map (hex2 false) (c_value c)
  | _ => value_text (c_value c) body
  end.
Proof.
  intros HT HB H. destruct H as [v|v|v t HV|ty v t N1 N2 N8 HV]; cbn [c_type c_value] in *.
  - exists KImplicit, (flat_map (hex2 false) v). repeat split; auto using hexes_tame.
  - exists KParams, (flat_map (hex2 false) v). repeat split; auto using hexes_tame.
  - exists KGeneric, t. repeat split; auto. eapply value_tame; eauto.
  - exists (KOther ty), t. repeat split; auto. eapply value_tame; eauto.
Qed.

Definition comp_wf (c : component) : Prop := (c_type c < 4294967296)%N /\ Forall is_byte (c_value c).

Lemma prefix_tame k p : prefix_of k = Some p -> Forall tame p.
Proof.
  destruct k as [| | |t]; intros H.
  - injection H as <-. repeat constructor; discriminate.
  - injection H as <-. repeat constructor; discriminate.
  - discriminate.
  - unfold prefix_of in H. assert (E : to_string t = p) by congruence. rewrite <- E. apply digits_tame, to_string_digits.
Qed.
Lemma prefix_hd k p : prefix_of k = Some p ->
  match k with
  | KImplicit => hd 0%N p = 115%N
  | KParams => hd 0%N p = 112%N
  | KGeneric => False
  | KOther t => (hd 0 p <= 57)%N /\ p = to_string t
  end.
Proof.
  destruct k as [| | |t]; intros H.
  - injection H as <-. reflexivity.
  - injection H as <-. reflexivity.
  - discriminate.
  - unfold prefix_of in H. assert (E : to_string t = p) by congruence. clear H. split; [|now symmetry].
    pose proof (to_string_digits t) as D. rewrite E in D. destruct p as [|c p]; [cbn; lia|]. inversion_clear D. unfold digit in *. cbn. lia.
Qed.
Lemma component_inj c d t : comp_wf c -> comp_wf d -> component_text c t -> component_text d t -> c = d.
Proof.
  intros [T1 B1] [T2 B2] H1 H2.
  destruct (component_shape c t T1 B1 H1) as (k1 & b1 & K1 & M1 & E1 & V1).
  destruct (component_shape d t T2 B2 H2) as (k2 & b2 & K2 & M2 & E2 & V2).
  rewrite E1 in E2. clear E1 H1 H2.
  assert (HK : k1 = k2 /\ b1 = b2).
  { destruct (prefix_of k1) as [p1|] eqn:P1, (prefix_of k2) as [p2|] eqn:P2.
    - apply split_sep in E2; [|apply tame_eq; eapply prefix_tame; eauto..]. destruct E2 as [-> ->]. split; [|reflexivity].
      apply prefix_hd in P1, P2. destruct k1 as [| | |ty1], k2 as [| | |ty2]; try contradiction; try reflexivity; try lia.
      destruct P1 as [_ P1], P2 as [_ P2]. rewrite P1 in P2. apply to_string_inj in P2; [congruence|unfold u64; cbn in *; lia..].
    - exfalso. eapply no_sep; [|exact E2]. now apply tame_eq.
    - exfalso. symmetry in E2. eapply no_sep; [|exact E2]. now apply tame_eq.
    - destruct k1, k2; unfold prefix_of in P1, P2; try discriminate. auto. }
  destruct HK as [<- <-]. destruct c as [tc vc], d as [td vd]. cbn [c_type c_value] in *. f_equal; [congruence|].
  destruct k1.
  - apply (hexes_inj false); auto; congruence.
  - apply (hexes_inj false); auto; congruence.
  - eapply value_inj; eauto.
  - eapply value_inj; eauto.
Qed.

Lemma component_noslash c t : comp_wf c -> component_text c t -> Forall (fun x => x <> 47%N) t.
Proof.
  intros [T B] H. destruct (component_shape c t T B H) as (k & b & K & M & E & _). subst t.
  destruct (prefix_of k) as [p|] eqn:P; [|now apply tame_sl].
  apply Forall_app. split; [eapply tame_sl, prefix_tame; eauto|]. constructor; [discriminate|now apply tame_sl].
Qed.

Lemma components_head cs x ts : components_text cs (x :: ts) -> x = 47%N.
Proof. intros H. inversion H; reflexivity. Qed.
Lemma components_inj : forall n m t, Forall comp_wf n -> Forall comp_wf m -> components_text n t -> components_text m t -> n = m.
Proof.
  intros n m t HN HM H. revert m HN HM. induction H as [|c cs t ts HC HT IH]; intros m HN HM H2.
  - inversion H2; reflexivity.
  - inversion H2 as [|d ds t' ts' HD HT' E1 E2]; subst.
    inversion_clear HN. inversion_clear HM.
    pose proof (component_noslash _ _ H HC) as S1. pose proof (component_noslash _ _ H1 HD) as S2.
    assert (HX : t' = t /\ ts' = ts).
    { destruct ts as [|x ts], ts' as [|x' ts'].
      - rewrite !app_nil_r in E2. auto.
      - exfalso. pose proof (components_head _ _ _ HT') as ->. rewrite app_nil_r in E2.
        eapply no_sep; [|exact E2]. exact S1.
      - exfalso. pose proof (components_head _ _ _ HT) as ->. rewrite app_nil_r in E2. symmetry in E2.
        eapply no_sep; [|exact E2]. exact S2.
      - pose proof (components_head _ _ _ HT) as ->. pose proof (components_head _ _ _ HT') as ->.
        apply split_sep in E2; auto. destruct E2 as [-> ->]. auto. }
    destruct HX as [-> ->]. f_equal.
    + eapply component_inj; eauto.
    + apply IH; auto.
Qed.

Lemma name_wf_comps n : name_wf n -> Forall comp_wf n.
Proof.
  unfold name_wf, name_element. intros H. inversion_clear H as [|? ? _ _ HF]. rewrite Forall_map in HF. eapply Forall_impl; [|exact HF].
  intros c HC. inversion HC; subst. split; assumption.
Qed.

Lemma component_nonempty c t : comp_wf c -> component_text c t -> t <> [].
Proof.
  intros [T B] H E. destruct (component_shape c t T B H) as (k & b & K & M & E' & V). subst t.
  destruct (prefix_of k) as [p|] eqn:P; [destruct p; discriminate|]. subst b. destruct k; unfold prefix_of in P; try discriminate.
  inversion V as [v F E1 E2|v t X C E1 E2].
  - destruct (c_value c); discriminate.
  - subst. inversion C as [E3|b bs t ts HC HT E3 E4]; [rewrite <- E3 in X; inversion X|]. destruct HC; discriminate.
Qed.

Lemma name_uri_inj n m t : name_wf n -> name_wf m -> name_uri n t -> name_uri m t -> n = m.
Proof.
  intros W1 W2 H1 H2. apply name_wf_comps in W1, W2.
  assert (K : forall k, Forall comp_wf k -> k <> [] -> components_text k (str "/") -> False).
  { intros k W N H. inversion H as [|c cs u ts HC HT E1 E2]. subst. inversion_clear W.
    apply app_eq_nil in E2. destruct E2 as [-> _]. eapply component_nonempty; eauto. }
  inversion H1; inversion H2; subst; auto.
  - exfalso. eauto.
  - exfalso. eauto.
  - eapply components_inj; eauto.
Qed.
Lemma component_fun c t u : component_text c t -> component_text c u -> t = u.
Proof.
  assert (CF : forall v t, chars_text v t -> forall u, chars_text v u -> t = u).
  { induction 1 as [|b bs t' ts HC HT IH]; intros u' H; inversion H as [|b' bs' t'' ts' HC' HT']; subst; [reflexivity|].
    f_equal; [|auto]. destruct HC, HC'; congruence || contradiction. }
  assert (VF : forall v t u, value_text v t -> value_text v u -> t = u).
  { intros v t' u' H1 H2. inversion H1 as [v1 F1|v1 t1 X1 C1]; inversion H2 as [v2 F2|v2 t2 X2 C2]; subst; eauto.
    - exfalso. apply Exists_exists in X2. destruct X2 as (x & A & B). rewrite Forall_forall in F1. apply B. symmetry. auto.
    - exfalso. apply Exists_exists in X1. destruct X1 as (x & A & B). rewrite Forall_forall in F2. apply B. symmetry. auto. }
  intros H1 H2. inversion H1; inversion H2; subst; try congruence.
  - match goal with E : Comp 8 _ = Comp 8 _ |- _ => injection E as -> end. eauto.
  - match goal with E : Comp _ _ = Comp _ _ |- _ => injection E as -> -> end. repeat f_equal. eauto.
Qed.
