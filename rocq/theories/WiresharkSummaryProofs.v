(** Proofs about the summaries of the Wireshark dissector: the loop. *)
From Coq Require Import String Permutation.
From Verif Require Import Base BaseFacts TlvModel TlvProofs PingModel DumpModel WiresharkModel WiresharkSpec
  WiresharkProofs WiresharkProofs2 WiresharkProofs6 WiresharkProofs7 WiresharkSummaryModel WiresharkSummarySpec WiresharkSummaryShape.
Open Scope nat_scope.
Open Scope list_scope.

Lemma NoDup_app_r {A} (a b : list A) : NoDup (a ++ b) -> NoDup b.
Proof. induction a as [|x a IH]; [auto|]. intros H. inversion H. auto. Qed.
Lemma NoDup_app_intro {A} (a b : list A) : NoDup a -> NoDup b -> (forall x, In x a -> In x b -> False) -> NoDup (a ++ b).
Proof.
  induction a as [|x a IH]; intros HA HB H; [exact HB|]. inversion HA; subst. cbn. constructor.
  - rewrite in_app_iff. intros [X|X]; [auto|]. apply (H x); [now left|exact X].
  - apply IH; auto. intros y Y1 Y2. apply (H y); [now right|exact Y2].
Qed.

Definition look (sm : list (nat * text)) (k : nat) : option text :=
  match find (fun p => Nat.eqb (fst p) k) sm with Some p => Some (snd p) | None => None end.

Lemma look_cons k s sm j : look ((k, s) :: sm) j = if Nat.eqb k j then Some s else look sm j.
Proof. unfold look. cbn [find fst]. destruct (Nat.eqb k j); reflexivity. Qed.

Section Loop.
Variable items : list item.
Hypothesis HT : tree items.

(** the summary of [k], given those of the items that hang on it *)
Definition expected (sm : list (nat * text)) (k : nat) : option text :=
  match nth_error items k with
  | Some it =>
      if has_summary (it_type it) then
        match flat_map (mention items sm) (kids items k) with [] => None | l => Some (concat_comma l) end
      else None
  | None => None
  end.

Lemma addSummary_look sm k j : look sm k = None -> look (addSummary items sm k) j = if Nat.eqb k j then expected sm k else look sm j.
Proof.
  intros H. unfold addSummary, expected. destruct (nth_error items k) as [it|].
  2: { destruct (Nat.eqb_spec k j); congruence. }
  destruct (has_summary (it_type it)); [|destruct (Nat.eqb_spec k j); congruence].
  destruct (flat_map _ _); [destruct (Nat.eqb_spec k j); congruence|]. apply look_cons.
Qed.

Lemma mention_ext sm sm' j : look sm j = look sm' j -> mention items sm j = mention items sm' j.
Proof. intros H. unfold mention, value_of. fold (look sm j) (look sm' j). now rewrite H. Qed.
Lemma expected_ext sm sm' k : (forall c, In c (kids items k) -> look sm c = look sm' c) -> expected sm k = expected sm' k.
Proof.
  intros H. unfold expected. destruct (nth_error items k) as [it|]; [|reflexivity]. destruct (has_summary (it_type it)); [|reflexivity].
  replace (flat_map (mention items sm) (kids items k)) with (flat_map (mention items sm') (kids items k)); [reflexivity|].
  revert H. induction (kids items k) as [|c cs IH]; intros H; [reflexivity|]. cbn [flat_map].
  rewrite IH by (intros; apply H; now right). f_equal. apply mention_ext. symmetry. apply H. now left.
Qed.

Record inv (stack : list (nat * bool)) (F : list nat) (sm : list (nat * text)) : Prop := {
  i_nodup : NoDup (map fst stack ++ F);
  i_range : forall j, In j F -> j < length items;
  i_kids : forall k, In (k, false) stack \/ In k F -> incl (kids items k) F;
  i_parent : forall j, In j F -> exists p it, nth_error items j = Some it /\ it_parent it = Some p /\ (In p F \/ In (p, false) stack);
  i_done : forall j, j < length items -> ~ In j F -> ~ In j (map fst stack) ->
     (forall c, In c (kids items j) -> ~ In c F /\ ~ In c (map fst stack)) /\ look sm j = expected sm j;
  i_open : forall j, In j F \/ In j (map fst stack) -> look sm j = None;
  i_stack : forall s1 k s2, stack = s1 ++ (k, true) :: s2 -> forall c, In c (kids items k) ->
     ~ In c F /\ (In c (map fst s1) \/ ~ In c (map fst stack));
  i_inner : forall k, In (k, true) stack -> kids items k <> []
}.

Definition cost (s : nat * bool) : nat := if snd s then 1 else 2.
Definition costs (stack : list (nat * bool)) : nat := list_sum (map cost stack).

Lemma kid_parent k k' c : In c (kids items k) -> In c (kids items k') -> k = k'.
Proof. rewrite !kids_in. intros (it & E1 & E2) (it' & E3 & E4). congruence. Qed.
Lemma kid_gt k c : In c (kids items k) -> k < c.
Proof.
  rewrite kids_in. intros (it & E1 & E2). destruct c as [|c].
  - pose proof (t_root _ HT _ E1). congruence.
  - destruct (t_below _ HT _ _ E1) as (p & E & L). congruence.
Qed.
Lemma kid_range k c : In c (kids items k) -> c < length items.
Proof. rewrite kids_in. intros (it & E1 & E2). apply nth_error_Some. congruence. Qed.

Lemma pop_step k v stack F sm : inv ((k, v) :: stack) F sm -> (kids items k = [] \/ v = true) ->
  inv stack F (addSummary items sm k).
Proof.
  intros I HV.
  pose proof (i_nodup _ _ _ I) as ND. cbn [map fst app] in ND. inversion ND as [|? ? NI ND']; subst. rewrite in_app_iff in NI.
  assert (LK : look sm k = None) by (apply (i_open _ _ _ I); right; now left).
  assert (KD : forall c, In c (kids items k) -> ~ In c F /\ ~ In c (map fst stack)).
  { intros c Hc. destruct HV as [E| ->]; [rewrite E in Hc; destruct Hc|].
    destruct (i_stack _ _ _ I [] k stack eq_refl c Hc) as [A [[]|B]]. split; [exact A|]. intros X. apply B. now right. }
  assert (LA : forall j, j <> k -> look (addSummary items sm k) j = look sm j).
  { intros j Hj. rewrite addSummary_look by exact LK. destruct (Nat.eqb_spec k j); congruence. }
  constructor.
  - exact ND'.
  - apply (i_range _ _ _ I).
  - intros j Hj. apply (i_kids _ _ _ I). destruct Hj; [left; now right|now right].
  - intros j Hj. destruct (i_parent _ _ _ I j Hj) as (p & it & A & B & C). exists p, it. split; [exact A|]. split; [exact B|].
    destruct C as [C|[C|C]]; [now left| |now right].
    injection C as -> ->. destruct HV as [E|E]; [|discriminate].
    assert (In j (kids items p)) by (apply kids_in; eauto). rewrite E in H. destruct H.
  - intros j Hj N1 N2. destruct (Nat.eq_dec j k) as [->|NE].
    + split; [exact KD|]. rewrite addSummary_look, Nat.eqb_refl by exact LK. apply expected_ext.
      intros c Hc. symmetry. apply LA. apply kid_gt in Hc. lia.
    + destruct (i_done _ _ _ I j Hj N1) as [A B]. { intros [X|X]; [cbn in X; congruence|auto]. }
      split.
      * intros c Hc. destruct (A c Hc) as [A1 A2]. split; [exact A1|]. intros X. apply A2. now right.
      * rewrite LA by exact NE. rewrite B. apply expected_ext. intros c Hc. symmetry. apply LA.
        intros ->. destruct (A k Hc) as [_ A2]. apply A2. now left.
  - intros j Hj. rewrite LA; [apply (i_open _ _ _ I); destruct Hj; [now left|right; now right]|].
    intros ->. tauto.
  - intros s1 k' s2 E c Hc. subst stack. destruct (i_stack _ _ _ I ((k, v) :: s1) k' s2 eq_refl c Hc) as [A B].
    split; [exact A|]. cbn [map fst] in B. destruct B as [[->|B]|B]; [|now left|].
    + right. tauto.
    + right. intros X. apply B. now right.
  - intros j Hj. apply (i_inner _ _ _ I). now right.
Qed.

Lemma in_fst_false (cs : list nat) c v : In (c, v) (rev (map (fun c => (c, false)) cs)) <-> In c cs /\ v = false.
Proof. rewrite <- in_rev, in_map_iff. split; [intros (x & E & H); injection E as -> <-; auto|intros [H ->]; eauto]. Qed.
Lemma map_fst_rev (cs : list nat) : map fst (rev (map (fun c => (c, false)) cs)) = rev cs.
Proof. now rewrite map_rev, map_map, map_id. Qed.

Lemma push_step k stack F sm : inv ((k, false) :: stack) F sm -> kids items k <> [] ->
  exists F', length F' + length (kids items k) = length F /\
    inv (rev (map (fun c => (c, false)) (kids items k)) ++ (k, true) :: stack) F' sm.
Proof.
  intros I HK. set (cs := kids items k) in *.
  assert (HC : incl cs F) by (apply (i_kids _ _ _ I); left; now left).
  pose proof (i_nodup _ _ _ I) as ND. cbn [map fst app] in ND. inversion ND as [|? ? NI ND']; subst. rewrite in_app_iff in NI.
  assert (NF : NoDup F) by (eapply NoDup_app_r; exact ND').
  assert (NC : NoDup cs) by apply kids_nodup.
  set (F' := filter (fun j => negb (existsb (Nat.eqb j) cs)) F).
  assert (EX : forall j, existsb (Nat.eqb j) cs = true <-> In j cs).
  { intros j. rewrite existsb_exists. split; [intros (x & Hx & E); apply Nat.eqb_eq in E; now subst|intros H; exists j; split; [exact H|apply Nat.eqb_refl]]. }
  assert (IF : forall j, In j F' <-> In j F /\ ~ In j cs).
  { intros j. unfold F'. rewrite filter_In, negb_true_iff. split; intros [A B]; (split; [exact A|]).
    - intros X. apply EX in X. congruence.
    - destruct (existsb (Nat.eqb j) cs) eqn:E; [|reflexivity]. apply EX in E. tauto. }
  assert (NF' : NoDup F') by (apply NoDup_filter; exact NF).
  assert (PF : Permutation (cs ++ F') F).
  { apply NoDup_Permutation; [|exact NF|].
    - apply NoDup_app_intro; auto. intros x H1 H2. apply IF in H2. tauto.
    - intros x. rewrite in_app_iff, IF. split; [intros [H|H]; [auto|tauto]|].
      intros H. destruct (in_dec Nat.eq_dec x cs); auto. }
  exists F'. split. { apply Permutation_length in PF. rewrite app_length in PF. lia. }
  assert (MF : map fst (rev (map (fun c => (c, false)) cs) ++ (k, true) :: stack) = rev cs ++ k :: map fst stack).
  { rewrite map_app, map_fst_rev. reflexivity. }
  assert (KF : forall k', In (k', false) stack \/ In k' F -> k' <> k).
  { intros k' [H|H] ->; apply NI; [left; now apply (in_map fst) in H|now right]. }
  constructor.
  - rewrite MF. rewrite <- app_assoc. apply Permutation_NoDup with (l := k :: map fst stack ++ F); [|exact ND].
    change (k :: map fst stack ++ F) with ((k :: map fst stack) ++ F). cbn [app].
    rewrite <- PF. change (k :: map fst stack ++ cs ++ F') with ((k :: map fst stack) ++ cs ++ F').
    change (k :: map fst stack ++ F') with ((k :: map fst stack) ++ F').
    rewrite !app_assoc. apply Permutation_app_tail.
    etransitivity; [apply Permutation_app_comm|]. apply Permutation_app_tail, Permutation_rev.
  - intros j Hj. apply IF in Hj. now apply (i_range _ _ _ I).
  - intros k' Hk'. assert (X : In (k', false) ((k, false) :: stack) \/ In k' F).
    { destruct Hk' as [H|H]; [|apply IF in H; tauto]. apply in_app_iff in H. destruct H as [H|H].
      - apply in_fst_false in H. right. apply HC. tauto.
      - destruct H as [H|H]; [discriminate|]. left. now right. }
    intros c Hc. apply IF. split; [now apply (i_kids _ _ _ I k' X)|]. intros Hcs.
    assert (k' = k) by (eapply kid_parent; eassumption). subst k'.
    destruct Hk' as [H|H].
    + apply in_app_iff in H. destruct H as [H|[H|H]]; [|discriminate|].
      * apply in_fst_false in H. destruct H as [H _]. apply kid_gt in H. lia.
      * apply (KF k); auto.
    + apply IF in H. apply (KF k); tauto.
  - intros j Hj. apply IF in Hj. destruct Hj as [Hj Hn]. destruct (i_parent _ _ _ I j Hj) as (p & it & A & B & C).
    exists p, it. split; [exact A|]. split; [exact B|].
    assert (NP : p <> k). { intros ->. apply Hn. apply kids_in. eauto. }
    destruct C as [C|[C|C]]; [|congruence|right; apply in_or_app; right; now right].
    destruct (in_dec Nat.eq_dec p cs) as [D|D].
    + right. apply in_or_app. left. now apply in_fst_false.
    + left. apply IF. tauto.
  - intros j Hj N1 N2. rewrite MF in *. rewrite in_app_iff, <- in_rev in N2. cbn [In] in N2.
    assert (N3 : ~ In j F). { intros X. apply N1. apply IF. tauto. }
    destruct (i_done _ _ _ I j Hj N3) as [A B]. { cbn [map fst In]. tauto. }
    split; [|exact B]. intros c Hc. destruct (A c Hc) as [A1 A2]. split; [intros X; apply IF in X; tauto|].
    rewrite in_app_iff, <- in_rev. cbn [map fst In] in *. intros [X|X]; [|tauto]. apply A1. auto.
  - intros j Hj. rewrite MF, in_app_iff, <- in_rev in Hj. apply (i_open _ _ _ I). cbn [map fst In] in *.
    destruct Hj as [Hj|[Hj|Hj]]; [apply IF in Hj; tauto|left; auto|tauto].
  - intros s1 k' s2 E c Hc. rewrite MF.
    destruct (Nat.eq_dec k' k) as [->|NE].
    + split; [intros X; apply IF in X; tauto|]. left.
      assert (s1 = rev (map (fun c => (c, false)) cs)).
      { clear -E NI HC ND HT HK. revert E. assert (Q : forall x, In x (rev (map (fun c => (c, false)) cs)) -> fst x <> k).
        { intros [x v] Hx. apply in_fst_false in Hx. destruct Hx as [Hx _]. apply kid_gt in Hx. cbn. lia. }
        revert s1 Q. generalize (rev (map (fun c => (c, false)) cs)). induction l as [|a l IH]; intros s1 Q E.
        - destruct s1 as [|a s1]; [reflexivity|]. exfalso. cbn in E. injection E as <- E. apply NI. left. subst stack.
          rewrite map_app. apply in_or_app. right. now left.
        - destruct s1 as [|a' s1]; cbn [app] in E.
          + exfalso. injection E as -> E. apply (Q (k, true)); [now left|reflexivity].
          + injection E as <- E. f_equal. apply IH; [intros x Hx; apply Q; now right|exact E]. }
      subst s1. rewrite map_fst_rev. now apply -> in_rev.
    + assert (X : exists s1', s1 = rev (map (fun c => (c, false)) cs) ++ (k, true) :: s1' /\ stack = s1' ++ (k', true) :: s2).
      { clear -E NE. assert (Q : forall x, In x (rev (map (fun c => (c, false)) cs)) -> snd x = false).
        { intros [x v] Hx. apply in_fst_false in Hx. apply Hx. }
        revert s1 E Q. generalize (rev (map (fun c => (c, false)) cs)). induction l as [|a l IH]; intros s1 E Q.
        - destruct s1 as [|a s1]; cbn [app] in E; [congruence|]. injection E as <- E. exists s1. auto.
        - destruct s1 as [|a' s1]; cbn [app] in E.
          + injection E as -> E. specialize (Q (k', true) (or_introl eq_refl)). discriminate.
          + injection E as <- E. destruct (IH s1 E) as (s1' & -> & H); [intros x Hx; apply Q; now right|].
            exists s1'. auto. }
      destruct X as (s1' & -> & ->).
      destruct (i_stack _ _ _ I ((k, false) :: s1') k' s2 eq_refl c Hc) as [A B].
      split; [intros X; apply IF in X; tauto|]. rewrite map_app, map_fst_rev. cbn [map fst].
      destruct B as [B|B].
      * left. apply in_or_app. right. exact B.
      * right. rewrite in_app_iff, <- in_rev. intros [X|X]; [apply A; auto|]. apply B. exact X.
  - intros k' H. apply in_app_iff in H. destruct H as [H|[H|H]].
    + apply in_fst_false in H. destruct H. discriminate.
    + injection H as <-. exact HK.
    + apply (i_inner _ _ _ I). now right.
Qed.

Lemma loop_ok : forall fuel stack F sm, inv stack F sm -> costs stack + 2 * length F <= fuel ->
  exists sm', sumLoop items fuel stack sm = Ok sm' /\ exists F', inv [] F' sm'.
Proof.
  induction fuel as [|fuel IH]; intros [|[k v] stack] F sm I HC; cbn [sumLoop]; eauto.
  - unfold costs in HC. cbn in HC. unfold cost in HC. cbn in HC. destruct v; lia.
  - assert (CC : costs ((k, v) :: stack) = (if v then 1 else 2) + costs stack) by reflexivity. rewrite CC in HC.
    destruct (kids items k) as [|c cs] eqn:EK.
    + apply IH with (F := F); [eapply pop_step; eauto|]. destruct v; lia.
    + destruct v.
      * apply IH with (F := F); [eapply pop_step; eauto|]. lia.
      * assert (NE : kids items k <> []) by congruence.
        destruct (push_step _ _ _ _ I NE) as (F' & L & I'). rewrite EK in *. apply IH with (F := F'); [exact I'|].
        unfold costs. rewrite map_app, list_sum_app. change (map cost ((k, true) :: stack)) with (1 :: map cost stack).
        cbn [list_sum fold_right]. fold (list_sum (map cost stack)) in *. fold (costs stack).
        assert (list_sum (map cost (rev (map (fun c => (c, false)) (c :: cs)))) = 2 * length (c :: cs)) as ->.
        { rewrite map_rev, map_map. cbn [cost snd]. generalize (c :: cs). clear. induction l as [|x l IHl]; [reflexivity|].
          cbn [map rev length]. rewrite list_sum_app, IHl. cbn. lia. }
        unfold list_sum. cbn [fold_right]. fold (list_sum (map cost stack)). fold (costs stack). lia.
Qed.

Lemma empty_F F sm : inv [] F sm -> F = [].
Proof.
  intros I. assert (H : forall j, ~ In j F).
  { intros j. induction j as [j IH] using (well_founded_induction lt_wf). intros Hj.
    destruct (i_parent _ _ _ I j Hj) as (p & it & A & B & [C|[]]). apply (IH p); [|exact C].
    apply kid_gt with (k := p). apply kids_in. eauto. }
  destruct F as [|x F]; [reflexivity|]. destruct (H x). now left.
Qed.

Lemma summaries_ok : items <> [] -> exists sm, summaries items = Ok sm /\
  forall k, k < length items -> look sm k = expected sm k.
Proof.
  intros HN. unfold summaries. set (n := length items).
  assert (NP : 0 < n) by (unfold n; destruct items; [congruence|cbn; lia]).
  assert (I : inv [(0, false)] (seq 1 (n - 1)) []).
  { constructor.
    - cbn [map fst app]. constructor; [rewrite in_seq; lia|apply seq_NoDup].
    - intros j Hj. apply in_seq in Hj. fold n. lia.
    - intros k _ c Hc. pose proof (kid_gt _ _ Hc). apply kid_range in Hc. fold n in Hc. apply in_seq. lia.
    - intros j Hj. apply in_seq in Hj. destruct (nth_error items j) as [it|] eqn:E.
      2: { apply nth_error_None in E. fold n in E. lia. }
      destruct j as [|j]; [lia|]. destruct (t_below _ HT _ _ E) as (p & Hp & L). exists p, it. split; [reflexivity|]. split; [exact Hp|].
      destruct p as [|p]; [right; now left|]. left. apply in_seq. lia.
    - intros j Hj N1 N2. exfalso. destruct j as [|j]; [apply N2; now left|]. apply N1, in_seq. fold n in Hj. lia.
    - reflexivity.
    - intros [|? s1] k s2 E; [discriminate|]. injection E as _ E. destruct s1; discriminate.
    - intros k [H|[]]. discriminate. }
  destruct (loop_ok (2 * n) _ _ _ I) as (sm & E & F' & I').
  { unfold costs. cbn. rewrite seq_length. lia. }
  exists sm. split; [exact E|]. intros k Hk. pose proof (empty_F _ _ I') as ->.
  apply (i_done _ _ _ I'); auto.
Qed.
End Loop.
