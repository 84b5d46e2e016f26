(** Lemmas about the dissector. *)
From Verif Require Import Base TlvModel TlvProofs PingModel PingProofs DumpModel DumpSpec DumpProofs2 DissectModel DissectSpec.
From Coq Require Import String List.
Import ListNotations.
Local Open Scope N_scope.
Local Open Scope list_scope.

(** * Trees *)
Fixpoint kids (label : N -> text) (esc : list N -> text) (cs : list tree) : list text :=
  match cs with
  | [] => []
  | [c] => hang CORNER BLANK (tree_lines label esc c)
  | c :: cs' => hang TEE VERT (tree_lines label esc c) ++ kids label esc cs'
  end.
Lemma lines_branch label esc t n cs : tree_lines label esc (Branch t n cs) = caption label t n :: kids label esc cs.
Proof.
  cbn [tree_lines]. f_equal. induction cs as [|c [|d cs] IH]; [reflexivity|reflexivity|]. cbn [kids]. f_equal. exact IH.
Qed.

Fixpoint tsize (x : tree) : nat :=
  match x with Leaf _ _ => 1%nat | Branch _ _ cs => S (list_sum (map tsize cs)) end.
Lemma tree_ind' (P : tree -> Prop) :
  (forall t v, P (Leaf t v)) -> (forall t n cs, Forall P cs -> P (Branch t n cs)) -> forall x, P x.
Proof.
  intros HL HB. fix IH 1. intros [t v|t n cs]; [apply HL|]. apply HB.
  induction cs as [|c cs IHcs]; constructor; [apply IH|exact IHcs].
Qed.

(** * Dividing values *)
Definition stops (r : list N) : Prop := r = [] \/ read_tlv r = None.
Lemma read_tlv_nil : read_tlv [] = None. Proof. reflexivity. Qed.
Lemma encode_all_cons e es : encode_all (e :: es) = tlv (fst e) (snd e) ++ encode_all es.
Proof. reflexivity. Qed.
Lemma encode_all_app a b : encode_all (a ++ b) = encode_all a ++ encode_all b.
Proof. apply flat_map_app. Qed.
Lemma decomposition_unique es es' : forall r r', elements_ok es -> elements_ok es' -> stops r -> stops r' ->
  encode_all es ++ r = encode_all es' ++ r' -> es = es' /\ r = r'.
Proof.
  assert (S0 : forall r, stops r -> read_tlv r = None) by (intros r [->|H]; [reflexivity|exact H]).
  revert es'. induction es as [|[t v] es IH]; intros es' r r' H H' Hr Hr' E.
  - destruct es' as [|[t' v'] es']; [auto|]. rewrite encode_all_cons in E. cbn [encode_all flat_map app fst snd] in E.
    apply S0 in Hr. rewrite E, <- app_assoc, read_tlv_tlv in Hr; [discriminate|]. inversion H'; assumption.
  - destruct es' as [|[t' v'] es'].
    + rewrite encode_all_cons in E. cbn [encode_all flat_map app fst snd] in E.
      apply S0 in Hr'. rewrite <- E, <- app_assoc, read_tlv_tlv in Hr'; [discriminate|]. inversion H; assumption.
    + rewrite !encode_all_cons, <- !app_assoc in E. cbn [fst snd] in E. inversion H; subst. inversion H'; subst. cbn [fst snd] in *.
      apply (f_equal read_tlv) in E. rewrite !read_tlv_tlv in E by assumption. inversion E; subst.
      destruct (IH es' r r') as [-> ->]; auto.
Qed.
Lemma no_header_stops r : ~ has_header r -> read_tlv r = None.
Proof.
  intros H. unfold read_tlv. destruct (read_type r) as [[t l1]|] eqn:E1; [|reflexivity].
  destruct (read_var l1) as [[n l2]|] eqn:E2; [|reflexivity]. elim H. exists t, l1, n, l2. auto.
Qed.

Section Parse.
Variable keep : bool.
Lemma parse_loop_cases fuel : forall l acc, Forall is_byte l -> (length l <= fuel)%nat ->
  (exists es, elements_ok es /\ l = encode_all es /\ parse_loop keep fuel l acc = rev acc ++ es) \/
  (exists es r, elements_ok es /\ l = encode_all es ++ r /\ r <> [] /\ ~ has_header r /\
     parse_loop keep fuel l acc = if keep then rev acc ++ es else []) \/
  (exists es r, elements_ok es /\ l = encode_all es ++ r /\ r <> [] /\ has_header r /\ read_tlv r = None /\
     parse_loop keep fuel l acc = []).
Proof.
  induction fuel as [|fuel IH]; intros l acc HB Hf.
  - destruct l; [|cbn in Hf; lia]. left. exists []. rewrite app_nil_r. repeat split. constructor.
  - destruct l as [|b l].
    { left. exists []. cbn. rewrite app_nil_r. repeat split. constructor. }
    cbn [parse_loop]. destruct (read_tlv (b :: l)) as [[[t v] rest]|] eqn:E.
    + pose proof E as E0. apply read_tlv_inv in E; [|exact HB]. destruct E as [E Hok].
      unfold read_tlv in E0. destruct (read_type (b :: l)) as [[t' l1]|]; [|discriminate].
      destruct (read_var l1) as [[n l2]|]; [|discriminate]. destruct (n <=? N.of_nat (length l2)); [|discriminate].
      inversion E0; subst t' v rest. rewrite E in HB. apply Forall_app in HB. destruct HB as [_ HB2].
      pose proof (tlv_nonempty t (firstn (N.to_nat n) l2)) as Hne.
      assert (Hl : (length (skipn (N.to_nat n) l2) <= fuel)%nat).
      { apply (f_equal (@length N)) in E. rewrite app_length in E. cbn [length] in *. lia. }
      specialize (IH _ ((t, firstn (N.to_nat n) l2) :: acc) HB2 Hl). rewrite E.
      destruct IH as [(es & H1 & H2 & H3)|[(es & r & H1 & H2 & H3 & H4 & H5)|(es & r & H1 & H2 & H3 & H4 & H5 & H6)]].
      * left. exists ((t, firstn (N.to_nat n) l2) :: es). split; [constructor; assumption|]. split; [rewrite encode_all_cons; cbn [fst snd]; now rewrite <- H2|].
        rewrite H3. cbn [rev]. now rewrite <- app_assoc.
      * right. left. exists ((t, firstn (N.to_nat n) l2) :: es), r. split; [constructor; assumption|].
        split; [rewrite encode_all_cons, <- app_assoc; cbn [fst snd]; now rewrite <- H2|]. split; [exact H3|]. split; [exact H4|].
        rewrite H5. cbn [rev]. now rewrite <- app_assoc.
      * right. right. exists ((t, firstn (N.to_nat n) l2) :: es), r. split; [constructor; assumption|].
        split; [rewrite encode_all_cons, <- app_assoc; cbn [fst snd]; now rewrite <- H2|]. auto.
    + assert (D : has_header (b :: l) \/ ~ has_header (b :: l)).
      { unfold has_header. destruct (read_type (b :: l)) as [[t l1]|]; [|right; intros (?&?&?&?&?&?); discriminate].
        destruct (read_var l1) as [[n l2]|] eqn:Ev; [left; exists t, l1, n, l2; auto|].
        right; intros (?&?&?&?&X&?). inversion X; subst. congruence. }
      destruct D as [D|D].
      * right. right. exists [], (b :: l). split; [constructor|]. split; [reflexivity|]. split; [discriminate|]. split; [exact D|]. split; [exact E|].
        destruct D as (t & l1 & n & l2 & E1 & E2). unfold read_tlv in E. rewrite E1, E2 in *.
        destruct (n <=? N.of_nat (length l2)); [discriminate|reflexivity].
      * right. left. exists [], (b :: l). split; [constructor|]. split; [reflexivity|]. split; [discriminate|]. split; [exact D|]. rewrite app_nil_r.
        destruct (read_type (b :: l)) as [[t l1]|] eqn:E1; [|reflexivity]. destruct (read_var l1) as [[n l2]|] eqn:E2; [|reflexivity].
        elim D. exists t, l1, n, l2. auto.
Qed.

Lemma divided_parse v es : Forall is_byte v -> divided keep v es -> parse_elements keep v = es.
Proof.
  intros HB H. destruct (parse_loop_cases (length v) v [] HB (le_n _)) as [(fs & A1 & A2 & A3)|[(fs & r & A1 & A2 & A3 & A4 & A5)|(fs & r & A1 & A2 & A3 & A4 & A5 & A6)]];
    unfold parse_elements; cbn [rev app] in *.
  - rewrite A3. destruct H as [[H1 H2]|[(Hk & H1 & r & H2 & H3 & H4)|(H1 & H2 & H3)]].
    + destruct (decomposition_unique fs es [] []) as [E _]; auto; try (now left). rewrite !app_nil_r. congruence.
    + destruct (decomposition_unique fs es [] r) as [_ E]; auto; [now left|right; now apply no_header_stops|rewrite app_nil_r; congruence|congruence].
    + elim (H2 fs). split; assumption.
  - rewrite A5. destruct H as [[H1 H2]|[(Hk & H1 & r' & H2 & H3 & H4)|(H1 & H2 & H3)]].
    + destruct (decomposition_unique fs es r []) as [_ E]; auto; [right; now apply no_header_stops|now left|rewrite app_nil_r; congruence|congruence].
    + rewrite Hk. destruct (decomposition_unique fs es r r') as [E _]; auto; [right; now apply no_header_stops|right; now apply no_header_stops|congruence].
    + destruct keep; [|congruence]. elim (H3 eq_refl fs). split; [exact A1|]. exists r. auto.
  - rewrite A6. destruct H as [[H1 H2]|[(Hk & H1 & r' & H2 & H3 & H4)|(H1 & H2 & H3)]].
    + destruct (decomposition_unique fs es r []) as [_ E]; auto; [now right|now left|rewrite app_nil_r; congruence|congruence].
    + destruct (decomposition_unique fs es r r') as [_ E]; auto; [now right|right; now apply no_header_stops|congruence|congruence].
    + congruence.
Qed.
Lemma parse_divided v : Forall is_byte v -> divided keep v (parse_elements keep v).
Proof.
  intros HB. destruct (parse_loop_cases (length v) v [] HB (le_n _)) as [(fs & A1 & A2 & A3)|[(fs & r & A1 & A2 & A3 & A4 & A5)|(fs & r & A1 & A2 & A3 & A4 & A5 & A6)]];
    unfold parse_elements; cbn [rev app] in *.
  - rewrite A3. left. split; assumption.
  - rewrite A5. destruct keep eqn:Ek.
    + right. left. split; [reflexivity|]. split; [exact A1|]. exists r. auto.
    + right. right. split; [reflexivity|]. split; [|discriminate]. intros es' [H1 H2].
      destruct (decomposition_unique fs es' r []) as [_ E]; auto; [right; now apply no_header_stops|now left|rewrite app_nil_r; congruence].
  - rewrite A6. right. right. split; [reflexivity|]. split.
    + intros es' [H1 H2]. destruct (decomposition_unique fs es' r []) as [_ E]; auto; [now right|now left|rewrite app_nil_r; congruence].
    + intros Hk es' (H1 & r' & H2 & H3 & H4). destruct (decomposition_unique fs es' r r') as [_ E]; auto; [now right|right; now apply no_header_stops|congruence|].
      subst r'. contradiction.
Qed.
Lemma divided_inside v es : divided keep v es -> elements_ok es /\ exists r, v = encode_all es ++ r.
Proof.
  intros [[H1 H2]|[(Hk & H1 & r & H2 & H3 & H4)|(H1 & H2 & H3)]].
  - split; [exact H1|]. exists []. now rewrite app_nil_r.
  - split; [exact H1|]. eauto.
  - subst es. split; [constructor|]. exists v. reflexivity.
Qed.
End Parse.

Lemma tlv_length t v : (length v + 2 <= length (tlv t v))%nat.
Proof.
  unfold tlv. rewrite !app_length. pose proof (var_number_nonempty t). pose proof (var_number_nonempty (N.of_nat (length v))). lia.
Qed.
Lemma encode_member es e : In e es -> (length (snd e) + 2 <= length (encode_all es))%nat.
Proof.
  induction es as [|a es IH]; [intros []|]. rewrite encode_all_cons, app_length. pose proof (tlv_length (fst a) (snd a)).
  intros [->|Hin]; [lia|]. apply IH in Hin. lia.
Qed.
Lemma encode_bytes es : Forall is_byte (encode_all es) -> Forall (fun e => Forall is_byte (snd e)) es.
Proof.
  induction es as [|a es IH]; [constructor|]. rewrite encode_all_cons. intros H. apply Forall_app in H. destruct H as [H1 H2].
  constructor; [|auto]. unfold tlv in H1. apply Forall_app in H1. destruct H1 as [_ H1]. apply Forall_app in H1. tauto.
Qed.

(** * printBlock *)
Section Print.
Variables keep content : bool.
Notation lab := type_label.
Notation TL := (tree_lines lab escape).
Notation KL := (kids lab escape).

(** the columns to the left of the lines that follow *)
Definition cont (br : list bool) : text := flat_map (fun b : bool => if b then VERT else BLANK) br.
Lemma cont_snoc br b : cont (br ++ [b]) = cont br ++ (if b then VERT else BLANK).
Proof. unfold cont. rewrite flat_map_app. cbn. now rewrite app_nil_r. Qed.
Lemma branches_snoc br b : printBranches (br ++ [b]) = cont br ++ (if b then TEE else CORNER).
Proof.
  induction br as [|a br IH]; [reflexivity|]. cbn [app]. destruct br as [|a' br].
  - cbn. destruct a; cbn; now rewrite ?app_nil_r.
  - change (printBranches (a :: (a' :: br) ++ [b])) with ((if a then GLYPH_VERTICAL else GLYPH_SPACE) ++ printBranches ((a' :: br) ++ [b])).
    rewrite IH. change (cont (a :: a' :: br)) with ((if a then VERT else BLANK) ++ cont (a' :: br)). now rewrite <- app_assoc.
Qed.

Lemma unlines_app a b : unlines (a ++ b) = unlines a ++ unlines b.
Proof. apply flat_map_app. Qed.
Lemma unlines_cons l ls : unlines (l :: ls) = l ++ [10] ++ unlines ls.
Proof. unfold unlines. cbn [flat_map]. now rewrite <- app_assoc. Qed.
Lemma hang_hang a b c d ls : hang a b (hang c d ls) = hang (a ++ c) (b ++ d) ls.
Proof. destruct ls as [|l ls]; [reflexivity|]. cbn [hang]. rewrite <- app_assoc, map_map. f_equal. apply map_ext. intros. apply app_assoc. Qed.
Lemma map_hang a b c ls : map (app a) (hang b c ls) = hang (a ++ b) (a ++ c) ls.
Proof. destruct ls as [|l ls]; [reflexivity|]. cbn [hang map]. rewrite <- app_assoc, map_map. f_equal. apply map_ext. intros. apply app_assoc. Qed.
Lemma map_app_nil (ls : list text) : map (app []) ls = ls.
Proof. apply map_id. Qed.
Lemma hang_nil ls : hang [] [] ls = ls.
Proof. destruct ls as [|l ls]; [reflexivity|]. cbn [hang app]. f_equal. apply map_app_nil. Qed.

Lemma opaque_spec t : is_opaque content t = true <-> opaque_type content t.
Proof.
  unfold is_opaque, opaque_type. rewrite !orb_true_iff, andb_true_iff, negb_true_iff, !N.eqb_eq. tauto.
Qed.

Definition loopf fuel := (fix loop (es : list (N * list N)) (s : dst) : option dst :=
               match es with
               | [] => Some s
               | e :: es' =>
                   match (match es' with [] => set_back (d_br s) | _ => Some (d_br s) end) with
                   | None => None
                   | Some br =>
                       match printBlock keep content fuel e (Dst (d_out s) br) with
                       | None => None
                       | Some s' => loop es' s'
                       end
                   end
               end).
Lemma set_back_snoc br b : set_back (br ++ [b]) = Some (br ++ [false]).
Proof. unfold set_back. destruct (br ++ [b]) eqn:E; [destruct br; discriminate|]. rewrite <- E, removelast_last. reflexivity. Qed.
Lemma pop_back_snoc br b : pop_back (br ++ [b]) = Some br.
Proof. unfold pop_back. destruct (br ++ [b]) eqn:E; [destruct br; discriminate|]. rewrite <- E, removelast_last. reflexivity. Qed.

Lemma loop_prints fuel es cs :
  Forall2 (fun e c => forall s, printBlock keep content fuel e s =
     Some (Dst (d_out s ++ unlines (hang (printBranches (d_br s)) (cont (d_br s)) (TL c))) (d_br s))) es cs ->
  forall out br, exists b, loopf fuel es (Dst out (br ++ [true])) =
    Some (Dst (out ++ unlines (map (app (cont br)) (KL cs))) (br ++ [b])).
Proof.
  induction 1 as [|e c es cs He Hes IH]; intros out br.
  - exists true. cbn. now rewrite app_nil_r.
  - cbn [loopf d_br d_out]. fold (loopf fuel). destruct es as [|e2 es].
    + inversion Hes; subst. exists false. rewrite set_back_snoc, He. cbn [d_br d_out loopf kids].
      rewrite branches_snoc, cont_snoc. cbv iota. now rewrite map_hang.
    + destruct cs as [|c2 cs]; [inversion Hes|]. rewrite He. cbn [d_br d_out].
      destruct (IH (out ++ unlines (hang (printBranches (br ++ [true])) (cont (br ++ [true])) (TL c))) br) as [b Hb].
      exists b. fold (loopf fuel) in Hb |- *. rewrite Hb. f_equal. f_equal.
      cbn [kids]. rewrite map_app, unlines_app, map_hang, branches_snoc, cont_snoc. cbv iota. now rewrite <- app_assoc.
Qed.

Lemma printBlock_prints fuel : forall e tr, shown keep content e tr -> Forall is_byte (snd e) -> (length (snd e) < fuel)%nat ->
  forall s, printBlock keep content fuel e s =
    Some (Dst (d_out s ++ unlines (hang (printBranches (d_br s)) (cont (d_br s)) (TL tr))) (d_br s)).
Proof.
  induction fuel as [|fuel IH]; intros e tr Hs HB Hf s; [lia|]. cbn [printBlock].
  change (fix loop (es : list (N * list N)) (s0 : dst) {struct es} : option dst := _) with (loopf fuel).
  destruct Hs as [t v Ho|t v es cs Ho Hne Hd Hcs]; cbn [fst snd] in *.
  - assert (E : (if is_opaque content t then [] else parse_elements keep v) = []).
    { destruct (is_opaque content t) eqn:Eo; [reflexivity|]. destruct Ho as [Ho|Ho].
      - apply opaque_spec in Ho. congruence.
      - now apply divided_parse. }
    rewrite E. cbn [loopf d_br d_out]. rewrite pop_back_snoc. f_equal. f_equal. f_equal.
    cbn [tree_lines hang map]. rewrite unlines_cons. unfold caption, printType. cbn [unlines flat_map]. rewrite app_nil_r.
    rewrite <- !app_assoc. reflexivity.
  - assert (E : (if is_opaque content t then [] else parse_elements keep v) = es).
    { destruct (is_opaque content t) eqn:Eo; [apply opaque_spec in Eo; contradiction|]. now apply divided_parse. }
    rewrite E. destruct (divided_inside _ _ _ Hd) as [Hok [r Hv]].
    assert (HB2 : Forall (fun e => Forall is_byte (snd e)) es).
    { rewrite Hv in HB. apply Forall_app in HB. now apply encode_bytes. }
    assert (HL : forall e, In e es -> (length (snd e) < fuel)%nat).
    { intros e He. apply encode_member in He. rewrite Hv, app_length in Hf. lia. }
    assert (F : Forall2 (fun e c => forall s, printBlock keep content fuel e s =
       Some (Dst (d_out s ++ unlines (hang (printBranches (d_br s)) (cont (d_br s)) (TL c))) (d_br s))) es cs).
    { clear - IH Hcs HB2 HL. induction Hcs as [|e c es cs He Hes IHes]; [constructor|]. inversion HB2; subst.
      constructor; [|apply IHes; auto; intros; apply HL; now right]. intros s. apply IH; auto. apply HL. now left. }
    match goal with |- context [loopf fuel es (Dst ?o _)] => destruct (loop_prints fuel es cs F o (d_br s)) as [b ->] end.
    cbn [d_br d_out]. rewrite pop_back_snoc. f_equal. f_equal.
    rewrite lines_branch. cbn [hang]. rewrite unlines_cons.
    destruct es as [|e0 es0]; [congruence|]. unfold caption, printType. rewrite <- !app_assoc. reflexivity.
Qed.

Lemma tree_exists n : forall e, (length (snd e) < n)%nat -> Forall is_byte (snd e) -> exists tr, shown keep content e tr.
Proof.
  induction n as [|n IH]; intros [t v] Hn HB; cbn [snd] in *; [lia|].
  destruct (is_opaque content t) eqn:Eo.
  { exists (Leaf t v). constructor. left. now apply opaque_spec. }
  pose proof (parse_divided keep v HB) as Hd. destruct (parse_elements keep v) as [|e0 es0] eqn:Ep.
  { exists (Leaf t v). constructor. now right. }
  set (es := e0 :: es0) in *.
  destruct (divided_inside _ _ _ Hd) as [Hok [r Hv]].
  assert (HB2 : Forall (fun e => Forall is_byte (snd e)) es).
  { rewrite Hv in HB. apply Forall_app in HB. now apply encode_bytes. }
  assert (HL : forall e, In e es -> (length (snd e) < n)%nat).
  { intros e He. apply encode_member in He. rewrite Hv, app_length in Hn. lia. }
  assert (C : exists cs, Forall2 (shown keep content) es cs).
  { clear - IH HB2 HL. induction es as [|e es IHes]; [exists []; constructor|]. inversion HB2; subst.
    destruct (IH e) as [c Hc]; auto; [apply HL; now left|]. destruct IHes as [cs Hcs]; auto; [intros; apply HL; now right|]. exists (c :: cs). now constructor. }
  destruct C as [cs Hcs]. exists (Branch t (length v) cs). apply (Sh_branch keep content t v es cs); auto.
  - intros Ho. apply opaque_spec in Ho. congruence.
  - discriminate.
Qed.

Lemma shown_exists e : Forall is_byte (snd e) -> exists tr, shown keep content e tr.
Proof. intros H. apply (tree_exists (S (length (snd e)))); [lia|exact H]. Qed.

(** * dissect *)
Variable limit : N.
Definition fits (e : N * list N) : Prop := elem_ok (fst e) (snd e) /\ Forall is_byte (snd e) /\ N.of_nat (length (tlv (fst e) (snd e))) <= limit.

Lemma dissect_loop_prints es : forall trs rest fuel off out,
  Forall fits es -> Forall2 (shown keep content) es trs ->
  rest = [] \/ from_stream limit rest = None -> (length (encode_all es ++ rest) <= fuel)%nat ->
  dissect_loop keep limit content fuel (encode_all es ++ rest) off (Dst out []) =
    Some (Dst (out ++ unlines (forest_lines lab escape trs)) [],
          match rest with [] => None | _ => Some (off + length (encode_all es))%nat end).
Proof.
  induction es as [|[t v] es IH]; intros trs rest fuel off out Hf Hs Hr Hl.
  - inversion Hs; subst. cbn [encode_all flat_map app forest_lines unlines] in *. rewrite app_nil_r.
    destruct rest as [|b rest]; [destruct fuel; reflexivity|]. destruct fuel as [|fuel]; [cbn in Hl; lia|].
    destruct Hr as [Hr|Hr]; [discriminate|]. cbn [dissect_loop]. rewrite Hr. cbn [length]. now rewrite Nat.add_0_r.
  - inversion Hs as [|? tr ? trs' Ht Hs']; subst. inversion Hf as [|? ? [Hok [HB Hlim]] Hf']; subst. cbn [fst snd] in *.
    rewrite encode_all_cons in *. cbn [fst snd] in *. rewrite <- app_assoc in *.
    pose proof (tlv_nonempty t v) as Hne.
    destruct fuel as [|fuel]; [rewrite app_length in Hl; lia|].
    destruct (tlv t v ++ encode_all es ++ rest) as [|b l] eqn:E.
    { apply (f_equal (@length _)) in E. rewrite app_length in E. cbn in E. lia. }
    cbn [dissect_loop]. rewrite <- E. unfold from_stream at 1. rewrite read_tlv_tlv by exact Hok.
    destruct (N.leb_spec (N.of_nat (length (tlv t v))) limit); [|lia].
    rewrite (printBlock_prints (S (length v)) (t, v) tr Ht HB) by (cbn; lia). cbn [d_out d_br printBranches].
    change (cont []) with (@nil N). rewrite hang_nil.
    rewrite (IH trs' rest) by (auto; rewrite <- E, app_length in Hl; lia).
    f_equal. f_equal.
    + f_equal. unfold forest_lines. cbn [flat_map]. rewrite unlines_app, <- app_assoc. reflexivity.
    + destruct rest; [reflexivity|]. f_equal. rewrite app_length. lia.
Qed.
Lemma dissect_prints es trs rest :
  Forall fits es -> Forall2 (shown keep content) es trs -> rest = [] \/ from_stream limit rest = None ->
  dissect keep limit content (encode_all es ++ rest) =
    Some (Dst (unlines (forest_lines lab escape trs)) [], match rest with [] => None | _ => Some (length (encode_all es)) end).
Proof. intros H1 H2 H3. unfold dissect. rewrite (dissect_loop_prints es trs rest) by auto. reflexivity. Qed.

(** every input is of this form *)
Lemma input_cases n : forall l, (length l <= n)%nat -> Forall is_byte l ->
  exists es rest, l = encode_all es ++ rest /\ Forall fits es /\ (rest = [] \/ from_stream limit rest = None).
Proof.
  induction n as [|n IH]; intros l Hn HB.
  - destruct l; [|cbn in Hn; lia]. exists [], []. auto.
  - destruct (from_stream limit l) as [[[t v] rest]|] eqn:E; [|exists [], l; auto].
    unfold from_stream in E. destruct (read_tlv l) as [[[t' v'] rest']|] eqn:Er; [|discriminate].
    destruct (N.leb_spec (N.of_nat (length (tlv t' v'))) limit); [|discriminate]. inversion E; subst t' v' rest'.
    apply read_tlv_inv in Er; [|exact HB]. destruct Er as [-> Hok]. apply Forall_app in HB. destruct HB as [HB1 HB2].
    pose proof (tlv_nonempty t v). rewrite app_length in Hn.
    destruct (IH rest) as (es & r & -> & Hf & Hr); [lia|exact HB2|].
    exists ((t, v) :: es), r. split; [rewrite encode_all_cons, <- app_assoc; reflexivity|]. split; [|exact Hr].
    constructor; [|exact Hf]. split; [exact Hok|]. split; [|assumption].
    unfold tlv in HB1. apply Forall_app in HB1. destruct HB1 as [_ HB1]. apply Forall_app in HB1. tauto.
Qed.
Lemma forest_exists es : Forall fits es -> exists trs, Forall2 (shown keep content) es trs.
Proof.
  induction 1 as [|e es [_ [HB _]] _ [trs IH]]; [exists []; constructor|]. destruct (shown_exists e HB) as [tr Ht]. exists (tr :: trs). now constructor.
Qed.
Lemma dissect_total l : Forall is_byte l -> exists out err, dissect keep limit content l = Some (Dst out [], err).
Proof.
  intros HB. destruct (input_cases (length l) l (le_n _) HB) as (es & rest & -> & Hf & Hr).
  destruct (forest_exists es Hf) as [trs Hs]. rewrite (dissect_prints es trs rest Hf Hs Hr). eauto.
Qed.
End Print.
