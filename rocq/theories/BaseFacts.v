(** Facts about the maps of [Base]. *)
From Verif Require Import Base.

Section KMapFacts.
  Context {A : Type}.
  Implicit Types (m : list (N * A)) (k : N).

  Lemma kget_kset_same k a m : kget k (kset k a m) = Some a.
  Proof.
    induction m as [|[k' a'] m IH]; cbn.
    - now rewrite N.eqb_refl.
    - destruct (N.eqb_spec k k'); cbn.
      + now rewrite N.eqb_refl.
      + destruct (N.eqb_spec k k'); [contradiction|exact IH].
  Qed.

  Lemma kget_kset_other k k' a m : k <> k' -> kget k (kset k' a m) = kget k m.
  Proof.
    intros Hne. induction m as [|[k1 a1] m IH]; cbn.
    - destruct (N.eqb_spec k k'); [contradiction|reflexivity].
    - destruct (N.eqb_spec k' k1); cbn.
      + subst. destruct (N.eqb_spec k k1); [contradiction|reflexivity].
      + destruct (N.eqb_spec k k1); [reflexivity|exact IH].
  Qed.

  Lemma kget_kset k k' a m :
    kget k (kset k' a m) = if N.eqb k k' then Some a else kget k m.
  Proof.
    destruct (N.eqb_spec k k') as [->|Hne].
    - apply kget_kset_same.
    - now apply kget_kset_other.
  Qed.

  Lemma kget_kdel k k' m :
    kget k (kdel k' m) = if N.eqb k k' then None else kget k m.
  Proof.
    unfold kdel. induction m as [|[k1 a1] m IH]; cbn.
    - now destruct (N.eqb k k').
    - destruct (N.eqb_spec k' k1) as [->|Hne]; cbn.
      + rewrite IH. destruct (N.eqb_spec k k1); reflexivity.
      + destruct (N.eqb_spec k k1) as [->|Hne1].
        * destruct (N.eqb_spec k1 k'); [congruence|reflexivity].
        * exact IH.
  Qed.

  Lemma kget_filter (p : N -> bool) k m :
    kget k (filter (fun e => p (fst e)) m) = if p k then kget k m else None.
  Proof.
    induction m as [|[k1 a1] m IH]; cbn.
    - now destruct (p k).
    - destruct (p k1) eqn:Hp; cbn.
      + destruct (N.eqb_spec k k1) as [->|Hne].
        * now rewrite Hp.
        * exact IH.
      + destruct (N.eqb_spec k k1) as [->|Hne].
        * rewrite Hp in IH |- *. exact IH.
        * exact IH.
  Qed.

  Lemma kget_in k a m : kget k m = Some a -> In (k, a) m.
  Proof.
    induction m as [|[k1 a1] m IH]; cbn; [discriminate|].
    destruct (N.eqb_spec k k1) as [->|Hne].
    - intros [= ->]. now left.
    - intros H. right. now apply IH.
  Qed.

  Lemma kget_none_keys k m : kget k m = None <-> ~ In k (keys m).
  Proof.
    unfold keys. induction m as [|[k1 a1] m IH]; cbn.
    - tauto.
    - destruct (N.eqb_spec k k1) as [->|Hne].
      + split; [discriminate|]. intros H. exfalso. apply H. now left.
      + rewrite IH. split.
        * intros H [H1|H1]; [congruence|tauto].
        * intros H H1. apply H. now right.
  Qed.

  Lemma kget_some_keys k m : (exists a, kget k m = Some a) <-> In k (keys m).
  Proof.
    destruct (kget k m) as [a|] eqn:E.
    - split; [|eauto]. intros _. apply kget_in in E. unfold keys.
      apply in_map_iff. exists (k, a). auto.
    - apply kget_none_keys in E. split; [intros [a H]; discriminate|tauto].
  Qed.

  Lemma in_kget k a m : NoDup (keys m) -> In (k, a) m -> kget k m = Some a.
  Proof.
    unfold keys. induction m as [|[k1 a1] m IH]; cbn; [tauto|].
    intros Hnd. inversion Hnd as [|? ? Hni Hnd']; subst.
    intros [[= -> ->]|Hin].
    - now rewrite N.eqb_refl.
    - destruct (N.eqb_spec k k1) as [->|Hne]; [|now apply IH].
      exfalso. apply Hni. apply in_map_iff. exists (k1, a). auto.
  Qed.

  Lemma keys_kset k a m :
    keys (kset k a m) = if kmem k m then keys m else keys m ++ [k].
  Proof.
    unfold kmem, keys. induction m as [|[k1 a1] m IH]; cbn; [reflexivity|].
    destruct (N.eqb_spec k k1) as [->|Hne]; cbn; [reflexivity|].
    rewrite IH. destruct (kget k m); reflexivity.
  Qed.

  Lemma keys_kdel k m : keys (kdel k m) = filter (fun k' => negb (N.eqb k k')) (keys m).
  Proof.
    unfold keys, kdel. induction m as [|[k1 a1] m IH]; cbn; [reflexivity|].
    destruct (N.eqb k k1); cbn; congruence.
  Qed.

  Lemma keys_filter (p : N -> bool) m :
    keys (filter (fun e => p (fst e)) m) = filter p (keys m).
  Proof.
    unfold keys. induction m as [|[k1 a1] m IH]; cbn; [reflexivity|].
    destruct (p k1); cbn; congruence.
  Qed.

  Lemma nodup_snoc {B} (x : B) l : ~ In x l -> NoDup l -> NoDup (l ++ [x]).
  Proof.
    intros Hni Hnd. apply NoDup_rev in Hnd.
    rewrite <- (rev_involutive (l ++ [x])). apply NoDup_rev.
    rewrite rev_app_distr. cbn. constructor; [|exact Hnd].
    now rewrite <- in_rev.
  Qed.

  Lemma nodup_keys_kset k a m : NoDup (keys m) -> NoDup (keys (kset k a m)).
  Proof.
    rewrite keys_kset. unfold kmem. destruct (kget k m) eqn:E; [auto|].
    intros H. apply nodup_snoc; [|exact H]. now apply kget_none_keys.
  Qed.

  Lemma nodup_keys_kdel k m : NoDup (keys m) -> NoDup (keys (kdel k m)).
  Proof. rewrite keys_kdel. apply NoDup_filter. Qed.

  Lemma nodup_keys_filter (p : N -> bool) m :
    NoDup (keys m) -> NoDup (keys (filter (fun e => p (fst e)) m)).
  Proof. rewrite keys_filter. apply NoDup_filter. Qed.
End KMapFacts.

(** Counting *)
Section CountFacts.
  Context {A : Type}.
  Implicit Types (p q : A -> bool) (l : list A).

  Lemma count_nil p : count p [] = 0.
  Proof. reflexivity. Qed.

  Lemma count_cons p x l : count p (x :: l) = (if p x then 1 else 0) + count p l.
  Proof. unfold count. cbn. destruct (p x); cbn [length]; lia. Qed.

  Lemma count_app p l1 l2 : count p (l1 ++ l2) = count p l1 + count p l2.
  Proof. unfold count. rewrite filter_app, app_length. lia. Qed.

  Lemma count_nonneg p l : 0 <= count p l.
  Proof. unfold count. lia. Qed.

  Lemma count_rev p l : count p (rev l) = count p l.
  Proof.
    induction l as [|x l IH]; [reflexivity|].
    cbn [rev]. rewrite count_app, IH, !count_cons, count_nil. lia.
  Qed.

  Lemma count_perm p l1 l2 : Permutation l1 l2 -> count p l1 = count p l2.
  Proof.
    induction 1 as [|x l1 l2 _ IH|x y l|l1 l2 l3 _ IH1 _ IH2];
      rewrite ?count_cons; lia.
  Qed.

  Lemma count_ext p q l : (forall x, In x l -> p x = q x) -> count p l = count q l.
  Proof.
    induction l as [|x l IH]; [reflexivity|]. intros H.
    rewrite !count_cons, IH, (H x); [reflexivity|now left|].
    intros y Hy. apply H. now right.
  Qed.

  Lemma count_le p q l : (forall x, In x l -> p x = true -> q x = true) -> count p l <= count q l.
  Proof.
    induction l as [|x l IH]; [rewrite !count_nil; lia|]. intros H.
    rewrite !count_cons.
    assert (count p l <= count q l) by (apply IH; intros y Hy; apply H; now right).
    destruct (p x) eqn:E; [rewrite (H x (or_introl eq_refl) E); lia|].
    destruct (q x); lia.
  Qed.

  Lemma count_zero p l : (forall x, In x l -> p x = false) -> count p l = 0.
  Proof.
    induction l as [|x l IH]; [reflexivity|]. intros H.
    rewrite count_cons, IH, (H x); [reflexivity|now left|].
    intros y Hy. apply H. now right.
  Qed.

  Lemma count_pos p l : 0 < count p l <-> exists x, In x l /\ p x = true.
  Proof.
    induction l as [|x l IH].
    - rewrite count_nil. split; [lia|intros [x [[] _]]].
    - rewrite count_cons. destruct (p x) eqn:E.
      + split; [|pose proof (count_nonneg p l); lia].
        intros _. exists x. split; [now left|exact E].
      + rewrite Z.add_0_l, IH. split.
        * intros [y [Hy Hp]]. exists y. split; [now right|exact Hp].
        * intros [y [[->|Hy] Hp]]; [congruence|]. now exists y.
  Qed.
End CountFacts.

Lemma fold_left_inv {S E} (step : S -> E -> S) (P : S -> Prop) :
  (forall s e, P s -> P (step s e)) ->
  forall es s, P s -> P (fold_left step es s).
Proof. intros H. induction es as [|e es IH]; cbn; auto. Qed.

Lemma fold_left_inv_when {S E} (step : S -> E -> S) (Q : E -> Prop) (P : S -> Prop) :
  (forall s e, Q e -> P s -> P (step s e)) ->
  forall es s, Forall Q es -> P s -> P (fold_left step es s).
Proof.
  intros H. induction es as [|e es IH]; cbn; intros s HF HP; [exact HP|].
  inversion HF; subst. apply IH; auto.
Qed.

Lemma nodup_app_l {A} (l1 l2 : list A) : NoDup (l1 ++ l2) -> NoDup l1.
Proof.
  induction l1 as [|x l1 IH]; cbn; [constructor|]. intros H. inversion H as [|? ? Hni Hnd]; subst.
  constructor; [|auto]. intros Hx. apply Hni. apply in_or_app. now left.
Qed.
