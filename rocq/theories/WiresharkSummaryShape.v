(** Proofs about the summaries of the Wireshark dissector: where the items of a tree are. *)
From Coq Require Import String.
From Verif Require Import Base BaseFacts TlvModel TlvProofs PingModel DumpModel WiresharkModel WiresharkSpec
  WiresharkProofs WiresharkProofs2 WiresharkProofs7 WiresharkSummaryModel.
Open Scope nat_scope.
Open Scope list_scope.

Lemma filter_seq_app {A} (f : option A -> bool) (l1 l2 : list A) : forall s,
  filter (fun j => f (nth_error (l1 ++ l2) (j - s))) (seq s (length (l1 ++ l2))) =
  filter (fun j => f (nth_error l1 (j - s))) (seq s (length l1)) ++
  filter (fun j => f (nth_error l2 (j - (s + length l1)))) (seq (s + length l1) (length l2)).
Proof.
  intros s. rewrite app_length, seq_app, filter_app. f_equal; apply filter_ext_in; intros j Hj; apply in_seq in Hj.
  - rewrite nth_error_app1 by lia. reflexivity.
  - rewrite nth_error_app2 by lia. do 2 f_equal. lia.
Qed.

Definition is_parent (k : nat) (o : option item) : bool :=
  match o with Some it => match it_parent it with Some p => Nat.eqb p k | None => false end | None => false end.

Lemma kids_eq items k : kids items k = filter (fun j => is_parent k (nth_error items (j - 0))) (seq 0 (length items)).
Proof. unfold kids. apply filter_ext. intros j. unfold parent_is, is_parent. now rewrite Nat.sub_0_r. Qed.

Lemma filter_none l k : forall s, Forall (fun it => it_parent it <> Some k) l ->
  filter (fun j => is_parent k (nth_error l (j - s))) (seq s (length l)) = [].
Proof.
  intros s H. assert (K : forall j, In j (seq s (length l)) -> is_parent k (nth_error l (j - s)) = false).
  { intros j _. unfold is_parent. destruct (nth_error l (j - s)) as [it|] eqn:E; [|reflexivity].
    apply nth_error_In in E. rewrite Forall_forall in H. apply H in E. destruct (it_parent it) as [p|]; [|reflexivity].
    apply Nat.eqb_neq. congruence. }
  induction (seq s (length l)) as [|j js IH]; [reflexivity|]. cbn [filter]. rewrite K by now left. apply IH. intros; apply K; now right.
Qed.
Lemma filter_every {A} (f : A -> bool) l : (forall x, In x l -> f x = true) -> filter f l = l.
Proof. induction l as [|x l IH]; intros H; [reflexivity|]. cbn. rewrite H by now left. f_equal. apply IH. intros; apply H; now right. Qed.
Lemma filter_all l k : forall s, Forall (fun it => it_parent it = Some k) l ->
  filter (fun j => is_parent k (nth_error l (j - s))) (seq s (length l)) = seq s (length l).
Proof.
  intros s H. apply filter_every. intros j Hj. apply in_seq in Hj. unfold is_parent.
  destruct (nth_error l (j - s)) as [it|] eqn:E.
  - apply nth_error_In in E. rewrite Forall_forall in H. apply H in E. rewrite E. apply Nat.eqb_refl.
  - apply nth_error_None in E. lia.
Qed.

Lemma kids_block a m b k :
  Forall (fun it => it_parent it <> Some k) a -> Forall (fun it => it_parent it = Some k) m ->
  Forall (fun it => it_parent it <> Some k) b -> kids (a ++ m ++ b) k = seq (length a) (length m).
Proof.
  intros HA HM HB. rewrite kids_eq, !filter_seq_app, (filter_none a), (filter_all m), (filter_none b) by assumption.
  cbn [app Nat.add]. now rewrite app_nil_r.
Qed.

Definition subs_of (els : option (list block)) : list block := match els with Some es => es | None => [] end.

(** [made buf out k b]: item [k] was made for the block [b], the items that hang on it were made
    for the blocks inside of [b], in their order *)
Inductive made (buf : list N) (out : list item) : nat -> block -> Prop :=
| made_intro k b par it els s :
    nth_error out k = Some it -> getSubBlocks buf b = Ok els -> addInfo buf b els par = Ok it ->
    kids out k = seq s (length (subs_of els)) ->
    (forall i c, nth_error (subs_of els) i = Some c -> made buf out (s + i) c) ->
    made buf out k b.

Definition below (n : nat) (p : option nat) : Prop := forall k, p = Some k -> k < n.

Lemma map_split {A B} (f : A -> B) l b1 b2 : map f l = b1 ++ b2 ->
  exists l1 l2, l = l1 ++ l2 /\ map f l1 = b1 /\ map f l2 = b2.
Proof.
  intros H. exists (firstn (length b1) l), (skipn (length b1) l). split; [symmetry; apply firstn_skipn|].
  rewrite <- firstn_map, <- skipn_map, H. split.
  - rewrite firstn_app, firstn_all, Nat.sub_diag. cbn. apply app_nil_r.
  - rewrite skipn_app, skipn_all, Nat.sub_diag. reflexivity.
Qed.

Lemma addTree_made buf : forall fuel queue items out, addTree buf fuel queue items = (Ok tt, out) ->
  Forall (fun it => below (length items) (it_parent it)) items ->
  Forall (fun q => below (length items) (snd q)) queue ->
  exists suf later, out = items ++ suf /\ map it_parent suf = map snd queue ++ later /\
    (forall i p, nth_error later i = Some p -> exists k, p = Some k /\ length items <= k < length items + length queue + i) /\
    (forall i q, nth_error queue i = Some q -> made buf out (length items + i) (fst q)).
Proof.
  induction fuel as [|fuel IH]; intros [|[b par] queue] items out H HI HQ; cbn [addTree] in H; try discriminate.
  1, 2: injection H as <-; exists [], []; rewrite app_nil_r; repeat split; intros [|i] ?; discriminate.
  destruct (getSubBlocks buf b) as [els| |] eqn:ES; [|discriminate..].
  destruct (addInfo buf b els par) as [it| |] eqn:EI; [|discriminate..].
  fold (subs_of els) in H. inversion_clear HQ as [|? ? HB HQ']. cbn [snd] in HB.
  assert (IP : it_parent it = par) by (apply addInfo_item in EI; tauto).
  set (n := length items) in *. assert (LN : length (items ++ [it]) = S n) by (rewrite app_length; cbn; unfold n; lia).
  destruct (IH _ _ _ H) as (suf & later & E1 & E2 & E3 & E4).
  { rewrite LN. apply Forall_app. split; [|constructor; [|constructor]].
    - eapply Forall_impl; [|exact HI]. intros x Hx k E. apply Hx in E. lia.
    - rewrite IP. intros k E. apply HB in E. lia. }
  { rewrite LN. apply Forall_app. split.
    - eapply Forall_impl; [|exact HQ']. intros x Hx k E. apply Hx in E. lia.
    - apply Forall_map, Forall_forall. intros x _ k. cbn. intros [= <-]. lia. }
  rewrite LN in *. clear IH H.
  assert (MS : map snd (map (fun c : block => (c, Some n)) (subs_of els)) = map (fun _ => Some n) (subs_of els)).
  { rewrite map_map. reflexivity. }
  rewrite map_app, MS in E2.
  exists (it :: suf), (map (fun _ => Some n) (subs_of els) ++ later).
  assert (EO : out = items ++ it :: suf) by (rewrite E1, <- app_assoc; reflexivity).
  split; [exact EO|]. split; [cbn [map snd]; rewrite E2, IP, <- app_assoc; reflexivity|]. split.
  - intros i p Hp. cbn [length]. destruct (Nat.lt_ge_cases i (length (subs_of els))) as [L|L].
    + rewrite nth_error_app1 in Hp by (rewrite map_length; lia). apply nth_error_In, in_map_iff in Hp. destruct Hp as (? & <- & _).
      exists n. split; [reflexivity|]. lia.
    + rewrite nth_error_app2 in Hp by (rewrite map_length; lia). rewrite map_length in Hp. apply E3 in Hp.
      destruct Hp as (k & -> & Hk). exists k. split; [reflexivity|]. rewrite app_length, map_length in Hk. lia.
  - intros [|i] q Hq; cbn [nth_error] in Hq.
    + injection Hq as <-. cbn [fst]. rewrite Nat.add_0_r.
      apply map_split in E2. destruct E2 as (s1 & s2 & Es & M1 & M2). apply map_split in M1. destruct M1 as (s3 & s4 & Es' & M3 & M4).
      assert (L3 : length s3 = length queue) by (rewrite <- (map_length it_parent), M3, map_length; reflexivity).
      assert (L4 : length s4 = length (subs_of els)) by (rewrite <- (map_length it_parent), M4, map_length; reflexivity).
      apply made_intro with (par := par) (it := it) (els := els) (s := S n + length queue); auto.
      * rewrite EO, nth_error_app2 by (unfold n; lia). unfold n. now rewrite Nat.sub_diag.
      * replace out with ((items ++ it :: s3) ++ s4 ++ s2) by (rewrite EO, Es, Es', <- !app_assoc; reflexivity).
        rewrite kids_block.
        -- rewrite app_length, L4. cbn [length]. rewrite L3. fold n. f_equal. lia.
        -- apply Forall_app. split; [|constructor].
           ++ eapply Forall_impl; [|exact HI]. intros x Hx E. apply Hx in E. lia.
           ++ rewrite IP. intros E. apply HB in E. lia.
           ++ apply Forall_forall. intros x Hx E. apply (in_map it_parent) in Hx. rewrite M3 in Hx. apply in_map_iff in Hx.
              destruct Hx as (q & Hq & Hin). rewrite Forall_forall in HQ'. apply HQ' in Hin. rewrite E in Hq. apply Hin in Hq. lia.
        -- apply Forall_forall. intros x Hx. apply (in_map it_parent) in Hx. rewrite M4 in Hx. apply in_map_iff in Hx.
           destruct Hx as (? & Hq & _). congruence.
        -- apply Forall_forall. intros x Hx E. apply (in_map it_parent) in Hx. rewrite M2 in Hx. apply In_nth_error in Hx.
           destruct Hx as [i Hi]. apply E3 in Hi. destruct Hi as (k & Hk & L). rewrite E in Hk. injection Hk as <-. lia.
      * intros i c Hc. replace (S n + length queue + i) with (S n + (length queue + i)) by lia.
        change c with (fst (c, Some n)). apply E4. rewrite nth_error_app2 by lia.
        replace (length queue + i - length queue) with i by lia. rewrite nth_error_map, Hc. reflexivity.
    + replace (n + S i) with (S n + i) by lia. apply E4. rewrite nth_error_app1; [exact Hq|]. apply nth_error_Some. congruence.
Qed.

(** * Trees *)
Record tree (items : list item) : Prop := {
  t_root : forall it, nth_error items 0 = Some it -> it_parent it = None;
  t_below : forall j it, nth_error items (S j) = Some it -> exists p, it_parent it = Some p /\ p < S j
}.

Lemma addTree_tree buf fuel b out : addTree buf fuel [(b, None)] [] = (Ok tt, out) ->
  tree out /\ made buf out 0 b.
Proof.
  intros H. destruct (addTree_made _ _ _ _ _ H) as (suf & later & E1 & E2 & E3 & E4).
  { constructor. } { constructor; [|constructor]. intros k. discriminate. }
  cbn [app length map snd] in *. subst out. split; [|apply (E4 0 _ eq_refl)]. constructor.
  - intros it Hi. apply (map_nth_error it_parent) in Hi. rewrite E2 in Hi. now injection Hi.
  - intros j it Hi. apply (map_nth_error it_parent) in Hi. rewrite E2 in Hi. cbn [nth_error app] in Hi.
    apply E3 in Hi. destruct Hi as (k & Hk & L). exists k. split; [exact Hk|lia].
Qed.

Lemma kids_in items k j : In j (kids items k) <-> exists it, nth_error items j = Some it /\ it_parent it = Some k.
Proof.
  unfold kids. rewrite filter_In, in_seq. unfold parent_is. split.
  - intros [_ H]. destruct (nth_error items j) as [it|]; [|discriminate]. exists it. split; [reflexivity|].
    destruct (it_parent it); [|discriminate]. apply Nat.eqb_eq in H. congruence.
  - intros (it & E1 & E2). assert (j < length items) by (apply nth_error_Some; congruence). split; [lia|].
    rewrite E1, E2. apply Nat.eqb_refl.
Qed.
Lemma kids_nodup items k : NoDup (kids items k).
Proof. apply NoDup_filter, seq_NoDup. Qed.

(** every item was made for a block *)
Lemma all_made buf out b (S : block -> Prop) : tree out -> made buf out 0 b -> S b ->
  (forall b els c, S b -> getSubBlocks buf b = Ok els -> In c (subs_of els) -> S c) ->
  forall j it, nth_error out j = Some it -> exists c, S c /\ made buf out j c.
Proof.
  intros HT HM HS HC j. induction j as [j IH] using (well_founded_induction lt_wf). intros it Hj.
  destruct j as [|j]; [eauto|].
  destruct (t_below _ HT _ _ Hj) as (p & Hp & L).
  assert (exists itp, nth_error out p = Some itp) as [itp Ep].
  { destruct (nth_error out p) eqn:E; [eauto|]. apply nth_error_None in E.
    assert (Datatypes.S j < length out) by (apply nth_error_Some; congruence). lia. }
  destruct (IH p L _ Ep) as (c & Sc & Mc). inversion Mc as [k b' par it' els s M1 M2 M3 M4 M5]; subst.
  assert (Hin : In (Datatypes.S j) (kids out p)) by (apply kids_in; eauto).
  rewrite M4, in_seq in Hin. destruct (nth_error (subs_of els) (Datatypes.S j - s)) as [c'|] eqn:Ec.
  2: { apply nth_error_None in Ec. lia. }
  exists c'. split; [eapply HC; eauto using nth_error_In|].
  replace (Datatypes.S j) with (s + (Datatypes.S j - s)) by lia. now apply M5.
Qed.

(** the items on an item are in the order of their octets *)
Lemma tiles_order buf : forall cs o e l1 a l2 b l3, tiles buf o e cs -> cs = l1 ++ a :: l2 ++ b :: l3 ->
  (b_off a + lval (b_size a) <= b_off b)%Z.
Proof.
  intros cs o e l1. revert cs o. induction l1 as [|x l1 IH]; intros cs o a l2 b l3 H E; subst cs; cbn [app tiles] in H.
  - destruct H as (<- & _ & _ & s & -> & Hs & H). cbn [lval]. revert H. generalize (b_off a + s)%Z. clear.
    induction l2 as [|y l2 IH]; intros o H; cbn [app tiles] in H.
    + destruct H as (<- & _). lia.
    + destruct H as (_ & _ & _ & s & _ & ? & H). apply IH in H. lia.
  - destruct H as (_ & _ & _ & s & _ & _ & H). eapply IH; [exact H|reflexivity].
Qed.

Lemma seq_split s n l1 a l2 b l3 : seq s n = l1 ++ a :: l2 ++ b :: l3 ->
  exists i j, i < j < n /\ a = s + i /\ b = s + j.
Proof.
  intros H. assert (L : length (l1 ++ a :: l2 ++ b :: l3) = n) by (rewrite <- H; apply seq_length).
  rewrite app_length in L. cbn [length] in L. rewrite app_length in L. cbn [length] in L.
  exists (length l1), (length l1 + S (length l2)). split; [lia|]. split.
  - assert (K : nth (length l1) (seq s n) 0 = a) by (rewrite H, app_nth2, Nat.sub_diag by lia; reflexivity).
    rewrite seq_nth in K by lia. lia.
  - assert (K : nth (length l1 + S (length l2)) (seq s n) 0 = b).
    { rewrite H, app_nth2 by lia. replace (length l1 + S (length l2) - length l1) with (S (length l2)) by lia.
      cbn [nth]. rewrite app_nth2, Nat.sub_diag by lia. reflexivity. }
    rewrite seq_nth in K by lia. lia.
Qed.

Lemma nth_two {A} (l : list A) i j x y : nth_error l i = Some x -> nth_error l j = Some y -> i < j ->
  exists l1 l2 l3, l = l1 ++ x :: l2 ++ y :: l3.
Proof.
  intros H1 H2 L. apply nth_error_split in H1. destruct H1 as (l1 & r & -> & <-).
  rewrite nth_error_app2 in H2 by lia. replace (j - length l1) with (S (j - S (length l1))) in H2 by lia. cbn in H2.
  apply nth_error_split in H2. destruct H2 as (l2 & l3 & -> & _). eauto.
Qed.

Lemma made_order buf out k b : made buf out k b -> sized buf b ->
  forall l1 x l2 y l3, kids out k = l1 ++ x :: l2 ++ y :: l3 -> exists ix iy,
    nth_error out x = Some ix /\ nth_error out y = Some iy /\ (it_off ix + it_size ix <= it_off iy)%Z.
Proof.
  intros HM HS l1 x l2 y l3 HK. inversion HM as [k' b' par it els s M1 M2 M3 M4 M5]; subst.
  rewrite M4 in HK. apply seq_split in HK. destruct HK as (i & j & [L1 L2] & -> & ->).
  destruct (nth_error (subs_of els) i) as [ci|] eqn:Ei; [|apply nth_error_None in Ei; lia].
  destruct (nth_error (subs_of els) j) as [cj|] eqn:Ej; [|apply nth_error_None in Ej; lia].
  pose proof (M5 _ _ Ei) as Mi. pose proof (M5 _ _ Ej) as Mj.
  inversion Mi as [? ? ? ix ? ? X1 _ X3 _ _]; subst. inversion Mj as [? ? ? iy ? ? Y1 _ Y3 _ _]; subst.
  exists ix, iy. split; [exact X1|]. split; [exact Y1|].
  apply addInfo_item in X3, Y3. destruct X3 as (-> & -> & _), Y3 as (-> & _).
  pose proof (sub_sized buf b HS) as K. rewrite M2 in K. destruct els as [cs|]; [|cbn in L2; lia].
  destruct K as (_ & _ & l & _ & HT). cbn [subs_of] in *. destruct (nth_two _ _ _ _ _ Ei Ej L1) as (u & v & w & E).
  eapply tiles_order; eauto.
Qed.
